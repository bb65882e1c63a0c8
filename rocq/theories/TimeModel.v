(** Model of the time helpers: mdflib/src/timestamp.cpp (ISO 8601 texts), mdflib/src/mdfhelper.cpp
    (CANopen dates and times, MDF 3 dates and times), mdf3timestamp.cpp and mdf4timestamp.cpp.
    The C library calls timegm, gmtime, mktime and localtime are modelled by what POSIX says they
    compute. Characters are bytes. *)
From Verif Require Import Base.
Local Open Scope N_scope.

(** struct tm of the C library, the members the code uses. *)
Record tm : Type := mkTm {
  tm_sec : Z; tm_min : Z; tm_hour : Z; tm_mday : Z; tm_mon : Z; tm_year : Z; tm_wday : Z; tm_isdst : Z }.

(** Days before a month (0..11), the table __mon_yday of the C library. *)
Definition mon_yday (leap : bool) (mon : Z) : Z :=
  (nth (Z.to_nat mon)
    (if leap then [0; 31; 60; 91; 121; 152; 182; 213; 244; 274; 305; 335; 366]
     else [0; 31; 59; 90; 120; 151; 181; 212; 243; 273; 304; 334; 365]) 0)%Z.
Definition is_leap (y : Z) : bool :=
  ((y mod 4 =? 0) && (negb (y mod 100 =? 0) || (y mod 400 =? 0)))%Z.

(** Called at timestamp.cpp:311 as timegm: the formula of POSIX, "Seconds Since the Epoch", with the
    day of the year taken from the month and the day of the month. *)
Definition posix_days (year mon mday : Z) : Z :=
  (365 * (year - 70) + (year - 69) / 4 - (year - 1) / 100 + (year + 299) / 400
   + mon_yday (is_leap (1900 + year)) mon + (mday - 1))%Z.
Definition timegm (t : tm) : Z :=
  (posix_days (tm_year t) (tm_mon t) (tm_mday t) * 86400
   + tm_hour t * 3600 + tm_min t * 60 + tm_sec t)%Z.

(** Called at timestamp.cpp:55, 67, 81 and mdfhelper.cpp:188 as gmtime: the C library first takes
    whole years, then whole months. [fuel] is enough: a year has at least 365 days. Times before
    1970 are not modelled. *)
Fixpoint take_years (fuel : nat) (y days : Z) : Z * Z :=
  match fuel with
  | O => (y, days)
  | S f => let n := (if is_leap y then 366 else 365)%Z in
           if (days <? n)%Z then (y, days) else take_years f (y + 1)%Z (days - n)%Z
  end.
Fixpoint take_months (k : nat) (leap : bool) (days : Z) : Z * Z :=
  match k with
  | O => (0, days)%Z
  | S k' => if (mon_yday leap (Z.of_nat k) <=? days)%Z
            then (Z.of_nat k, (days - mon_yday leap (Z.of_nat k))%Z)
            else take_months k' leap days
  end.
Definition gmtime (t : Z) : tm :=
  let days := (t / 86400)%Z in
  let rem := (t mod 86400)%Z in
  let '(y, yd) := take_years (S (Z.to_nat (days / 365))) 1970 days in
  let '(mon, d) := take_months 11 (is_leap y) yd in
  mkTm (rem mod 60) ((rem / 60) mod 60) (rem / 3600) (d + 1) mon (y - 1900) ((4 + days) mod 7) 0.

(** put_time with %d, %m, %H, %M, %S, and setw(3) with fill '0': decimal digits with leading zeros.
    %Y has no leading zeros, years from 1970 to 9999 have four digits. *)
Fixpoint put_dec (k : nat) (v : Z) : list N :=
  match k with
  | O => []
  | S k' => put_dec k' (v / 10)%Z ++ [(48 + Z.to_N (v mod 10))]
  end.
Definition put_date (t : tm) : list N :=
  put_dec 4 (tm_year t + 1900) ++ [45] ++ put_dec 2 (tm_mon t + 1) ++ [45] ++ put_dec 2 (tm_mday t).
Definition put_clock (t : tm) : list N :=
  put_dec 2 (tm_hour t) ++ [58] ++ put_dec 2 (tm_min t) ++ [58] ++ put_dec 2 (tm_sec t).
Definition put_ms (include_ms : bool) (ms : N) : list N :=
  if (0 <? ms) && include_ms then 46 :: put_dec 3 (Z.of_N ms) else [].

Definition sec_of (ns : N) : Z := Z.of_N (ns / 1000000000).
(** timestamp.cpp:51-61 *)
Definition to_iso_date (ns : N) : list N := put_date (gmtime (sec_of ns)) ++ [90].
(** timestamp.cpp:63-76 *)
Definition to_iso_time (include_ms : bool) (ns : N) : list N :=
  put_clock (gmtime (sec_of ns)) ++ put_ms include_ms ((ns / 1000000) mod 1000) ++ [90].
(** timestamp.cpp:78-91 *)
Definition to_iso_date_time (include_ms : bool) (ns : N) : list N :=
  put_date (gmtime (sec_of ns)) ++ [84] ++ put_clock (gmtime (sec_of ns))
  ++ put_ms include_ms ((ns / 1000000) mod 1000) ++ [90].

(* ------------------------------------------------------------------ *)
(** * FromIsoDateTime *)

Inductive dstate : Type :=
| Start | Year | Month | Day | Hour | Minute | Second | MilliSecond | TzHour | TzMinute | End_.

(** The local variables of timestamp.cpp:94-121: the state, the texts of the fields, the flag. *)
Record scan : Type := mkScan {
  d_st : dstate; d_year : list N; d_month : list N; d_day : list N; d_hour : list N; d_minute : list N;
  d_second : list N; d_milli : list N; d_tzh : list N; d_tzm : list N; d_utc : bool }.
Definition scan0 : scan := mkScan Start [] [] [] [] [] [] [] [] [] false.

(** isdigit, in the C locale; the glibc tables answer for negative characters too. *)
Definition isdigit (c : N) : bool := (48 <=? c) && (c <=? 57).
Definition size_lt (l : list N) (k : N) : bool := N.of_nat (length l) <? k.

Definition to_state (s : scan) (st : dstate) : scan :=
  mkScan st (d_year s) (d_month s) (d_day s) (d_hour s) (d_minute s) (d_second s) (d_milli s) (d_tzh s)
    (d_tzm s) (d_utc s).
Definition with_year (s : scan) (x : list N) : scan :=
  mkScan (d_st s) x (d_month s) (d_day s) (d_hour s) (d_minute s) (d_second s) (d_milli s) (d_tzh s)
    (d_tzm s) (d_utc s).
Definition with_month (s : scan) (x : list N) : scan :=
  mkScan (d_st s) (d_year s) x (d_day s) (d_hour s) (d_minute s) (d_second s) (d_milli s) (d_tzh s)
    (d_tzm s) (d_utc s).
Definition with_day (s : scan) (x : list N) : scan :=
  mkScan (d_st s) (d_year s) (d_month s) x (d_hour s) (d_minute s) (d_second s) (d_milli s) (d_tzh s)
    (d_tzm s) (d_utc s).
Definition with_hour (s : scan) (x : list N) : scan :=
  mkScan (d_st s) (d_year s) (d_month s) (d_day s) x (d_minute s) (d_second s) (d_milli s) (d_tzh s)
    (d_tzm s) (d_utc s).
Definition with_minute (s : scan) (x : list N) : scan :=
  mkScan (d_st s) (d_year s) (d_month s) (d_day s) (d_hour s) x (d_second s) (d_milli s) (d_tzh s)
    (d_tzm s) (d_utc s).
Definition with_second (s : scan) (x : list N) : scan :=
  mkScan (d_st s) (d_year s) (d_month s) (d_day s) (d_hour s) (d_minute s) x (d_milli s) (d_tzh s)
    (d_tzm s) (d_utc s).
Definition with_milli (s : scan) (x : list N) : scan :=
  mkScan (d_st s) (d_year s) (d_month s) (d_day s) (d_hour s) (d_minute s) (d_second s) x (d_tzh s)
    (d_tzm s) (d_utc s).
Definition with_tzh (s : scan) (x : list N) : scan :=
  mkScan (d_st s) (d_year s) (d_month s) (d_day s) (d_hour s) (d_minute s) (d_second s) (d_milli s) x
    (d_tzm s) (d_utc s).
Definition with_tzm (s : scan) (x : list N) : scan :=
  mkScan (d_st s) (d_year s) (d_month s) (d_day s) (d_hour s) (d_minute s) (d_second s) (d_milli s)
    (d_tzh s) x (d_utc s).
Definition set_utc (s : scan) : scan :=
  mkScan (d_st s) (d_year s) (d_month s) (d_day s) (d_hour s) (d_minute s) (d_second s) (d_milli s)
    (d_tzh s) (d_tzm s) true.

(** '-' or '+': the sign goes to the hours of the offset. *)
Definition start_tz (s : scan) (c : N) : scan := to_state (with_tzh s (d_tzh s ++ [c])) TzHour.
Definition is_sign (c : N) : bool := (c =? 45) || (c =? 43).

(** One round of the loop, timestamp.cpp:123-253. *)
Definition scan_char (s : scan) (c : N) : scan :=
  match d_st s with
  | Start =>
      if isdigit c then to_state (with_year s (d_year s ++ [c])) Year
      else if c =? 84 then
        to_state (with_day (with_month (with_year s (d_year s ++ [49; 57; 55; 48])) (d_month s ++ [48; 49]))
                    (d_day s ++ [48; 49])) Hour
      else s
  | Year =>
      if c =? 45 then to_state s Month
      else if isdigit c && size_lt (d_year s) 4 then with_year s (d_year s ++ [c])
      else if isdigit c && negb (size_lt (d_year s) 4) then to_state (with_month s (d_month s ++ [c])) Month
      else if c =? 90 then set_utc s
      else s
  | Month =>
      if c =? 45 then to_state s Day
      else if isdigit c && size_lt (d_month s) 2 then with_month s (d_month s ++ [c])
      else if isdigit c && negb (size_lt (d_month s) 2) then to_state (with_day s (d_day s ++ [c])) Day
      else if c =? 90 then set_utc s
      else s
  | Day =>
      if (c =? 32) || (c =? 84) then to_state s Hour
      else if isdigit c && size_lt (d_day s) 2 then with_day s (d_day s ++ [c])
      else if c =? 90 then set_utc s
      else if is_sign c then start_tz s c
      else s
  | Hour =>
      if c =? 58 then to_state s Minute
      else if isdigit c && size_lt (d_hour s) 2 then with_hour s (d_hour s ++ [c])
      else if isdigit c && negb (size_lt (d_hour s) 2) then to_state (with_minute s (d_minute s ++ [c])) Minute
      else if c =? 90 then set_utc s
      else if is_sign c then start_tz s c
      else s
  | Minute =>
      if c =? 58 then to_state s Second
      else if isdigit c && size_lt (d_minute s) 2 then with_minute s (d_minute s ++ [c])
      else if isdigit c && negb (size_lt (d_minute s) 2) then to_state (with_second s (d_second s ++ [c])) Second
      else if c =? 90 then set_utc s
      else if is_sign c then start_tz s c
      else s
  | Second =>
      if c =? 46 then to_state s MilliSecond
      else if isdigit c && size_lt (d_second s) 2 then with_second s (d_second s ++ [c])
      else if c =? 90 then set_utc s
      else if is_sign c then start_tz s c
      else s
  | MilliSecond =>
      (* the size tested is the one of the minutes, timestamp.cpp:226 *)
      if c =? 46 then to_state s MilliSecond
      else if isdigit c && size_lt (d_minute s) 9 then with_milli s (d_milli s ++ [c])
      else if c =? 90 then set_utc s
      else if is_sign c then start_tz s c
      else s
  | TzHour =>
      if c =? 58 then to_state s TzMinute
      else if isdigit c then with_tzh s (d_tzh s ++ [c])
      else s
  | TzMinute =>
      if isdigit c && size_lt (d_tzm s) 2 then with_tzm s (d_tzm s ++ [c])
      else if c =? 90 then to_state (set_utc s) End_
      else s
  | End_ => s
  end.
Definition scan_text (s : scan) (t : list N) : scan := fold_left scan_char t s.

(** The value of a text of digits. *)
Definition dec_val (t : list N) : N := fold_left (fun a c => 10 * a + (c - 48)) t 0.
(** std::stoi on an optional sign followed by digits (the only texts it gets); [None] is an exception:
    no digit, or out of the range of int. *)
Definition stoi (t : list N) : option Z :=
  let '(neg, ds) := match t with
                    | c :: r => if c =? 45 then (true, r) else if c =? 43 then (false, r) else (false, t)
                    | [] => (false, t)
                    end in
  match ds with
  | [] => None
  | _ => let v := if neg : bool then (- Z.of_N (dec_val ds))%Z else Z.of_N (dec_val ds) in
         if ((- 2 ^ 31 <=? v) && (v <=? 2 ^ 31 - 1))%Z then Some v else None
  end.
(** std::stoull on digits. *)
Definition stoull (t : list N) : option N :=
  match t with [] => None | _ => if dec_val t <? 2 ^ 64 then Some (dec_val t) else None end.
Definition in_int (z : Z) : bool := ((- 2 ^ 31 <=? z) && (z <=? 2 ^ 31 - 1))%Z.

(** One of the fields of timestamp.cpp:257-301: empty gives [dflt]; [shift] is subtracted; what is out of
    range is replaced by [lo']. *)
Definition field (t : list N) (dflt shift lo hi lo' : Z) : option Z :=
  match t with
  | [] => Some (if ((dflt <? lo) || (hi <? dflt))%Z then lo' else dflt)
  | _ => match stoi t with
         | None => None
         | Some v => let x := (v - shift)%Z in Some (if ((x <? lo) || (hi <? x))%Z then lo' else x)
         end
  end.

(** timestamp.cpp:255-336: the fields are converted, an exception leaves the value as it was before the
    failing statement. [UB] is overflow of the int that holds the offset. *)
Definition finish (old : N) (s : scan) : res N :=
  match field (d_year s) 70 1900 70 (2 ^ 31) 70, field (d_month s) 0 1 0 11 0, field (d_day s) 0 0 1 31 1,
        field (d_hour s) 0 0 0 23 0, field (d_minute s) 0 0 0 59 0, field (d_second s) 0 0 0 59 0 with
  | Some year, Some mon, Some day, Some hour, Some min, Some sec =>
      match (match d_tzh s with [] => Some 0%Z | _ => stoi (d_tzh s) end) with
      | None => Ok old
      | Some tzh =>
          if negb (in_int (tzh * 60)) then UB else
          match (match d_tzm s with [] => Some 0%Z | _ => stoi (d_tzm s) end) with
          | None => Ok old
          | Some tzm =>
              if negb (in_int (tzh * 60 + tzm)) then UB else
              if negb (in_int ((tzh * 60 + tzm) * 60)) then UB else
              let off := ((tzh * 60 + tzm) * 60)%Z in
              let t := timegm (mkTm sec min hour day mon year 0 (-1)) in
              let u := if d_utc s then t else (t - off)%Z in
              let base := w64 (to_u64 u * 1000000000) in
              match d_milli s with
              | [] => Ok base
              | _ => match stoull (d_milli s) with
                     | None => Ok base
                     | Some v =>
                         let k := N.of_nat (length (d_milli s)) in
                         let f := if k <=? 3 then 1000000 else if k <=? 6 then 1000 else 1 in
                         Ok (w64 (base + w64 (v * f)))
                     end
              end
          end
      end
  | _, _, _, _, _, _ => Ok old
  end.

(** timestamp.cpp:93-341 UtcTimestamp::FromIsoDateTime, [old] is the value before. *)
Definition from_iso (old : N) (t : list N) : res N := finish old (scan_text scan0 t).

(* ------------------------------------------------------------------ *)
(** * CANopen *)

(** The time zone of the process, for mktime and localtime: seconds east of UTC without daylight saving
    time, and whether daylight saving time (one hour) is in force at an instant. *)
Record zone : Type := mkZone { z_std : Z; z_dst : Z -> bool }.
Definition localtime (z : zone) (t : Z) : tm :=
  let dst := z_dst z t in
  let g := gmtime (t + z_std z + (if dst then 3600 else 0)) in
  mkTm (tm_sec g) (tm_min g) (tm_hour g) (tm_mday g) (tm_mon g) (tm_year g) (tm_wday g) (if dst then 1 else 0).
(** mktime with tm_isdst 0 or positive, the only ways the CANopen functions call it. *)
Definition mktime (z : zone) (t : tm) : Z :=
  (timegm t - z_std z - (if 0 <? tm_isdst t then 3600 else 0))%Z.

(** mdfhelper.cpp:67-91; assigning an int to a byte keeps its low 8 bits. *)
Definition byte_of (z : Z) : N := Z.to_N (z mod 256).
Definition canopen_date (z : zone) (ns : N) : list N :=
  let ms_min := w16 ((ns / 1000000) mod 60000) in
  let bt := localtime z (sec_of ns) in
  let wday := if (tm_wday bt =? 0)%Z then 7%Z else tm_wday bt in
  le_bytes 2 ms_min
  ++ [byte_of (tm_min bt);
      N.lor (byte_of (tm_hour bt)) (if (tm_isdst bt =? 0)%Z then 0 else 0x80);
      N.lor (byte_of (tm_mday bt)) (w8 (byte_of wday * 32));
      byte_of (1 + tm_mon bt);
      byte_of (Z.rem (tm_year bt) 100)].

(** mdfhelper.cpp:98-103 and 126-131: mktime of the first of January 1984. *)
Definition sec_1984 (z : zone) : Z := mktime z (mkTm 0 0 0 1 0 84 0 0).
(** mdfhelper.cpp:93-120 *)
Definition canopen_time (z : zone) (ns : N) : list N :=
  let ms := w64 (ns / 1000000 + (2 ^ 64 - w64 (to_u64 (sec_1984 z) * 1000))) in
  let days := w16 (ms / 86400000) in
  le_bytes 4 (w32 (ms mod 86400000)) ++ le_bytes 2 days.
(** mdfhelper.cpp:122-136; the array is not checked, a short one is read out of bounds. *)
Definition time_of_canopen (z : zone) (b : list N) : res N :=
  if N.of_nat (length b) <? 6 then UB else
  let ms := le_num (slice 0 4 b) in
  let days := le_num (slice 4 2 b) in
  Ok (w64 (w64 (w64 (to_u64 (sec_1984 z) * 1000000000) + w64 (days * 24 * 3600000000000)) + w64 (ms * 1000000))).
(** mdfhelper.cpp:138-168 *)
Definition date_of_canopen (z : zone) (b : list N) : res N :=
  if N.of_nat (length b) <? 7 then UB else
  let ms := le_num (slice 0 2 b) in
  let min := N.land (nth 2 b 0) 0x3F in
  let hour := N.land (nth 3 b 0) 0x1F in
  let dst := negb (N.land 0x80 (nth 3 b 0) =? 0) in
  let wd := N.shiftr (N.land (nth 4 b 0) 0xE0) 5 in
  let day := N.land (nth 4 b 0) 0x1F in
  let month := N.land (nth 5 b 0) 0x3F in
  let year := N.land (nth 6 b 0) 0x7F in
  let t := mkTm 0 (Z.of_N min) (Z.of_N hour) (Z.of_N day) (Z.of_N month - 1)
             (if 70 <=? year then Z.of_N year else 100 + Z.of_N year)
             (if wd =? 7 then 0 else Z.of_N wd) (if dst then 1 else 0) in
  Ok (w64 (w64 (ms * 1000000) + w64 (to_u64 (mktime z t) * 1000000000))).

(* ------------------------------------------------------------------ *)
(** * Time stamps of files *)

(** itimestamp.h, the three kinds of time stamp a caller can set: the value and, for the last, the offsets
    of the zone and of daylight saving time in minutes. LocalTimestamp also holds the offsets of the
    machine, which the functions below do not use. *)
Inductive stamp : Type :=
| StUtc (ns : N)
| StLocal (ns : N)
| StZone (ns : N) (tz dst : Z).
Definition stamp_ns (t : stamp) : N := match t with StUtc n => n | StLocal n => n | StZone n _ _ => n end.

(** mdf4timestamp.h:36-41, the members of Mdf4Timestamp; the offsets are int16_t. *)
Record ts4 : Type := mkTs4 { t4_time : N; t4_tz : Z; t4_dst : Z; t4_flags : N }.
(** mdf4timestamp.cpp:46-51 SetTime(uint64_t) *)
Definition ts4_set_ns (ns : N) : ts4 := mkTs4 ns 0 0 0.
(** mdf4timestamp.cpp:52-69 SetTime(ITimestamp&) *)
Definition ts4_set (t : stamp) : ts4 :=
  match t with
  | StUtc n => mkTs4 n 0 0 0
  | StLocal n => mkTs4 n 0 0 1
  | StZone n tz dst => mkTs4 n tz dst 2
  end.
(** mdf4timestamp.cpp:33-44 Write: the bytes put at the position of the time stamp. *)
Definition ts4_bytes (t : ts4) : list N :=
  le_bytes 8 (t4_time t) ++ le_bytes 2 (Z.to_N (t4_tz t mod 2 ^ 16))
  ++ le_bytes 2 (Z.to_N (t4_dst t mod 2 ^ 16)) ++ le_bytes 1 (t4_flags t).
(** mdf4timestamp.cpp:24-31 Read, from 13 bytes. *)
Definition ts4_read (b : list N) : ts4 :=
  mkTs4 (le_num (slice 0 8 b)) (twos 16 (le_num (slice 8 2 b))) (twos 16 (le_num (slice 10 2 b)))
    (le_num (slice 12 1 b)).
(** mdf4timestamp.cpp:110-112; the offsets are returned as uint16_t. *)
Definition ts4_ns (t : ts4) : N := t4_time t.
Definition ts4_tz (t : ts4) : N := Z.to_N (t4_tz t mod 2 ^ 16).
Definition ts4_dst (t : ts4) : N := Z.to_N (t4_dst t mod 2 ^ 16).
(** imdftimestamp.h, timetype::MdfTimestampType *)
Inductive time_type : Type := LocalTime | LocalTimeTz | UtcTime | TimezoneTime.
(** mdf4timestamp.cpp:114-122 *)
Definition ts4_type (t : ts4) : time_type :=
  if negb (N.land (t4_flags t) 2 =? 0) then TimezoneTime
  else if negb (N.land (t4_flags t) 1 =? 0) then LocalTime
  else UtcTime.

(** What the machine answers when a time stamp is set: GmtOffsetNs and DstOffsetNs (both signed, of the
    current instant) and localtime. *)
Record machine : Type := mkMachine { m_gmt : Z; m_dst : Z; m_zone : zone }.

(** mdf3timestamp.h:27-34, the members of Mdf3Timestamp. *)
Record ts3 : Type := mkTs3 { t3_date : list N; t3_time : list N; t3_local : N; t3_utc_offset : Z }.
(** static_cast<int16_t> *)
Definition to_i16 (n : N) : Z := twos 16 (n mod 2 ^ 16).
Definition dmy (t : tm) : list N :=
  put_dec 2 (tm_mday t) ++ [58] ++ put_dec 2 (tm_mon t + 1) ++ [58] ++ put_dec 4 (tm_year t + 1900).
(** GmtOffsetNs() / kNanosecondsPerHour: the signed offset is converted to uint64_t before the division. *)
Definition gmt_hours (m : machine) : Z := to_i16 (to_u64 (m_gmt m) / 3600000000000).
(** mdf3timestamp.cpp:23-32, mdfhelper.cpp:170-184 *)
Definition ts3_set_ns (m : machine) (ns : N) : ts3 :=
  let bt := localtime (m_zone m) (sec_of ns) in
  mkTs3 (dmy bt) (put_clock bt) (w64 (ns + to_u64 (m_gmt m))) (gmt_hours m).
(** mdf3timestamp.cpp:34-63, mdfhelper.cpp:186-223 *)
Definition ts3_set (m : machine) (t : stamp) : ts3 :=
  match t with
  | StUtc n => ts3_set_ns m n
  | StLocal n =>
      mkTs3 (dmy (gmtime (sec_of n))) (put_clock (gmtime (sec_of n)))
        (w64 (n + (2 ^ 64 - to_u64 (m_dst m)))) (gmt_hours m)
  | StZone n tz dst =>
      let bt := gmtime (sec_of n + (tz + dst) * 60) in
      mkTs3 (dmy bt) (put_clock bt) (w64 (n + w64 (to_u64 tz * 60000000000))) (Z.quot tz 60)
  end.
(** mdf3timestamp.cpp:65-74 *)
Definition ts3_ns (t : ts3) : N := t3_local t.
Definition ts3_tz (t : ts3) : N := Z.to_N ((t3_utc_offset t * 60) mod 2 ^ 16).
Definition ts3_dst (t : ts3) : N := 0.
