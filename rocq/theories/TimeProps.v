(** Times and dates: C48 (ISO 8601 texts), C49 (CANopen arrays), C62 (start times in files). *)
From Verif Require Import Base TimeModel TimeSpec TimeProofs TimeProofs2 TimeProofs3.
Local Open Scope Z_scope.

(* ------------------------------------------------------------------ *)
(** * C48 *)

(** The offsets the code understands: "Z", "+hh", "-hh", "+hh:mm", and "-hh:00". *)
Definition understood (o : offset) : Prop :=
  match o with
  | OffNone | OffZ | OffHours _ _ => True
  | OffMinutes e _ m => e = true \/ m = 0
  | OffBasic _ _ _ => False
  end.

(** Every ISO 8601 text of an instant from 1970 on that fits in 64 bits of nanoseconds: date and time in
    the extended or basic form, 'T' or space between them, a fraction of 0, 3, 6 or 9 digits, an
    understood offset. Missing: the other fractions and offsets, refuted below. *)
Theorem C48_instant_partial : forall old ed et sep n y m d h mi s f o,
  sep = 84%N \/ sep = 32%N ->
  calendar n = (y, m, d) -> y <= 9999 -> 0 <= h < 24 -> 0 <= mi < 60 -> 0 <= s < 60 ->
  Forall is_digit f -> (length f = 0 \/ length f = 3 \/ length f = 6 \/ length f = 9)%nat ->
  offset_valid o -> understood o ->
  0 <= instant n h mi s f o < 2 ^ 64 ->
  from_iso old (iso_text ed et sep (y, m, d) h mi s f o) = Ok (Z.to_N (instant n h mi s f o)).
Proof.
  intros old ed et sep n y m d h mi s f o S C Y H M Sc F L V U R.
  rewrite (from_iso_exact old ed et sep n) by (auto; tauto).
  rewrite fraction_code by auto.
  assert (O : code_minutes o = offset_minutes o).
  { destruct o as [| |e a|e a b|e a b]; cbn [code_minutes offset_minutes understood] in *; auto; [|tauto].
    destruct e; [reflexivity|]. destruct U as [U|U]; [discriminate|lia]. }
  rewrite O. unfold instant in *. rewrite Z.mod_small by exact R. reflexivity.
Qed.
Print Assumptions C48_instant_partial.

(** A date alone, with or without 'Z', is midnight UTC. *)
Theorem C48_date_only : forall old ed (u : bool) n y m d, calendar n = (y, m, d) -> y <= 9999 ->
  Z.of_nat n * 86400 * 1000000000 < 2 ^ 64 ->
  from_iso old (date_text ed (y, m, d) ++ (if u then [90%N] else []))
  = Ok (Z.to_N (Z.of_nat n * 86400 * 1000000000)).
Proof. exact date_only. Qed.
Print Assumptions C48_date_only.

(** The calendar reaches every date there is. *)
Theorem C48_every_date : forall y m d, real_date y m d -> exists n, calendar n = (y, m, d).
Proof. intros y m d R. eexists. apply (calendar_all y m d R). Qed.
Print Assumptions C48_every_date.

(** The printed text of any time stamp denotes it to the millisecond (or the second), in the calendar. *)
Theorem C48_printed : forall ms ns,
  let t := Z.of_N ns / 1000000000 in
  let milli := Z.of_N ns / 1000000 mod 1000 in
  to_iso_date_time ms ns
  = iso_text true true 84 (calendar (Z.to_nat (t / 86400))) (t mod 86400 / 3600) (t mod 3600 / 60) (t mod 60)
      (if (0 <? milli) && ms then decimal 3 milli else []) OffZ.
Proof. exact printed_iso. Qed.
Print Assumptions C48_printed.

(** Printing a time stamp and reading the text gives the time stamp to the millisecond, or to the second
    when the milliseconds are left out. *)
Theorem C48_print_read : forall old (ms : bool) ns, (ns < 2 ^ 64)%N ->
  from_iso old (to_iso_date_time ms ns)
  = Ok (if ms then ns - ns mod 1000000 else ns - ns mod 1000000000)%N.
Proof. exact print_back. Qed.
Print Assumptions C48_print_read.

(** The same for the date and for the time of day alone. *)
Theorem C48_printed_parts : forall ms ns,
  let t := Z.of_N ns / 1000000000 in
  let milli := Z.of_N ns / 1000000 mod 1000 in
  to_iso_date ns = date_text true (calendar (Z.to_nat (t / 86400))) ++ [90%N]
  /\ to_iso_time ms ns
     = clock_text true (t mod 86400 / 3600) (t mod 3600 / 60) (t mod 60)
       ++ fraction_text (if (0 <? milli) && ms then decimal 3 milli else []) ++ [90%N].
Proof.
  intros ms ns t milli. assert (E : sec_of ns = t) by (unfold sec_of, t; lia).
  assert (P : 0 <= t) by (unfold t; lia). split.
  - unfold to_iso_date. rewrite E, printed_date by auto. reflexivity.
  - pose proof (printed_iso ms ns) as Q. cbn zeta in Q. unfold to_iso_date_time, iso_text in Q.
    fold t milli in Q. rewrite E in Q. rewrite printed_date in Q by auto. rewrite printed_clock in Q by auto.
    apply app_inv_head in Q. cbn [app] in Q. injection Q as Q.
    unfold to_iso_time. rewrite E, printed_clock by auto. rewrite Q. reflexivity.
Qed.
Print Assumptions C48_printed_parts.

(** A fraction with one or two digits is read as milliseconds: half a second, ".5", is 5 ms. *)
Theorem C48_short_fraction_refuted : exists f,
  Forall is_digit f /\ length f = 1%nat /\ instant 0 0 0 0 f OffZ = 500000000 /\
  from_iso 0 (iso_text true true 84 (1970, 1, 1) 0 0 0 f OffZ) = Ok 5000000%N.
Proof.
  exists [53%N]. repeat split; try reflexivity. repeat constructor; discriminate.
Qed.
Print Assumptions C48_short_fraction_refuted.

(** A fraction with more than nine digits is added as if it were nanoseconds. *)
Theorem C48_long_fraction_refuted : exists f,
  Forall is_digit f /\ length f = 12%nat /\ instant 0 0 0 0 f OffZ = 500000000 /\
  from_iso 0 (iso_text true true 84 (1970, 1, 1) 0 0 0 f OffZ) = Ok 500000000000%N.
Proof.
  exists (53 :: repeat 48 11)%N. repeat split; try reflexivity. repeat constructor; discriminate.
Qed.
Print Assumptions C48_long_fraction_refuted.

(** The minutes of a western offset are added to the hours instead of taken away: every text with such
    an offset is read twice the minutes too early. *)
Theorem C48_west_minutes_refuted : forall old ed et sep n y m d h mi s oh om,
  sep = 84%N \/ sep = 32%N ->
  calendar n = (y, m, d) -> y <= 9999 -> 0 <= h < 24 -> 0 <= mi < 60 -> 0 <= s < 60 ->
  0 <= oh < 24 -> 0 < om < 60 ->
  120 * om * 1000000000 <= instant n h mi s [] (OffMinutes false oh om) < 2 ^ 64 ->
  from_iso old (iso_text ed et sep (y, m, d) h mi s [] (OffMinutes false oh om))
  = Ok (Z.to_N (instant n h mi s [] (OffMinutes false oh om) - 120 * om * 1000000000)).
Proof.
  intros old ed et sep n y m d h mi s oh om S C Y H M Sc O1 O2 R.
  rewrite (from_iso_exact old ed et sep n) by (auto; try tauto; cbn; lia).
  unfold instant in *. cbn [offset_minutes code_minutes] in *.
  change (code_fraction []) with 0. change (fraction_ns []) with 0 in *.
  rewrite Z.mod_small by lia. do 2 f_equal. lia.
Qed.
Print Assumptions C48_west_minutes_refuted.

(** An offset in the basic form is read as that many hours: "+0530" as 530 hours. *)
Theorem C48_basic_offset_refuted : exists n,
  calendar n = (1970, 3, 1) /\
  instant n 0 0 0 [] (OffBasic true 5 30) = (59 * 86400 - 5 * 3600 - 30 * 60) * 1000000000 /\
  from_iso 0 (iso_text true true 84 (1970, 3, 1) 0 0 0 [] (OffBasic true 5 30))
  = Ok (Z.to_N ((59 * 86400 - 530 * 3600) * 1000000000)).
Proof. exists 59%nat. repeat split; reflexivity. Qed.
Print Assumptions C48_basic_offset_refuted.

(** Years before 1970 are taken for 1970. *)
Theorem C48_before_1970_refuted : forall old,
  from_iso old (iso_text true true 84 (1969, 1, 1) 0 0 0 [] OffZ)
  = from_iso old (iso_text true true 84 (1970, 1, 1) 0 0 0 [] OffZ).
Proof. intros. reflexivity. Qed.
Print Assumptions C48_before_1970_refuted.

(** The time of day printed alone is not read back: its digits are taken for a date. 12:34:56 is read as
    the year 1970 (1234 is too early) and the month 56 (out of range, taken as January). *)
Theorem C48_time_only_refuted :
  to_iso_time true 45296000000000 = [49; 50; 58; 51; 52; 58; 53; 54; 90]%N /\
  forall old, from_iso old (to_iso_time true 45296000000000) = Ok 0%N.
Proof. split; [|intros]; reflexivity. Qed.
Print Assumptions C48_time_only_refuted.

(** A long offset overflows an int: "1970-01-01T00+9999999" has undefined behaviour. *)
Theorem C48_offset_overflow_refuted : forall old,
  from_iso old (date_text true (1970, 1, 1) ++ [84; 48; 48; 43]%N ++ repeat 57%N 7) = UB.
Proof. intros. reflexivity. Qed.
Print Assumptions C48_offset_overflow_refuted.

Example C48_witness :
  calendar (N.to_nat 18322) = (2020, 3, 1) /\ calendar (N.to_nat 18321) = (2020, 2, 29) /\
  iso_text true true 84 (2020, 2, 29) 23 59 58 [49; 50; 51]%N (OffMinutes true 5 30)
  = [50;48;50;48;45;48;50;45;50;57;84;50;51;58;53;57;58;53;56;46;49;50;51;43;48;53;58;51;48]%N /\
  from_iso 7 (iso_text true true 84 (2020, 2, 29) 23 59 58 [49; 50; 51]%N (OffMinutes true 5 30))
  = Ok 1583000998123000000%N.
Proof.
  assert (A : calendar (N.to_nat 18321) = (2020, 2, 29)) by (vm_compute; reflexivity).
  assert (B : calendar (N.to_nat 18322) = (2020, 3, 1)) by (vm_compute; reflexivity).
  split; [exact B|]. split; [exact A|]. split; [vm_compute; reflexivity|].
  pose proof (C48_instant_partial 7 true true 84%N (N.to_nat 18321) 2020 2 29 23 59 58 [49; 50; 51]%N (OffMinutes true 5 30)) as C.
  assert (E : Z.to_N (instant (N.to_nat 18321) 23 59 58 [49; 50; 51]%N (OffMinutes true 5 30)) = 1583000998123000000%N)
    by (vm_compute; reflexivity).
  assert (RG : 0 <= instant (N.to_nat 18321) 23 59 58 [49; 50; 51]%N (OffMinutes true 5 30) < 2 ^ 64)
    by (vm_compute; split; [discriminate|reflexivity]).
  rewrite <- E. clear E. apply C; clear C.
  - left; reflexivity.
  - exact A.
  - discriminate.
  - split; [discriminate|reflexivity].
  - split; [discriminate|reflexivity].
  - split; [discriminate|reflexivity].
  - repeat constructor; discriminate.
  - right; left; reflexivity.
  - repeat split; discriminate.
  - left. reflexivity.
  - exact RG.
Qed.

(* ------------------------------------------------------------------ *)
(** * C49 *)

(** CANopen time (milliseconds of the day, days since 1 January 1984): in every time zone, for every
    instant the 16 bits of days can hold, the array holds these two numbers and decoding it gives the
    instant to the millisecond. *)
Theorem C49_time : forall z ns,
  let ms := Z.of_N ns / 1000000 - sec_1984 z * 1000 in
  0 <= sec_1984 z -> 0 <= ms < 65536 * 86400000 -> (ns < 2 ^ 64)%N ->
  canopen_time z ns
  = le_bytes 4 (Z.to_N (ms mod 86400000)) ++ le_bytes 2 (Z.to_N (ms / 86400000))
  /\ time_of_canopen z (canopen_time z ns) = Ok (ns - ns mod 1000000)%N.
Proof. exact time_roundtrip. Qed.
Print Assumptions C49_time.

(** 1984 starts 5113 days after 1970, at local midnight. *)
Theorem C49_epoch : forall z, calendar (N.to_nat 5113) = (1984, 1, 1) /\ sec_1984 z = 5113 * 86400 - z_std z.
Proof.
  intros z. assert (C : calendar (N.to_nat 5113) = (1984, 1, 1)) by (vm_compute; reflexivity). split; [exact C|].
  unfold sec_1984, mktime. change (mkTm 0 0 0 1 0 84 0 0) with (mkTm 0 0 0 1 (1 - 1) (1984 - 1900) 0 0).
  rewrite (timegm_calendar (N.to_nat 5113) 1984 1 1 0 0 0 0 0 C). cbn [tm_isdst]. change (0 <? 0) with false. cbv iota. lia.
Qed.
Print Assumptions C49_epoch.

(** CANopen date: the array holds the local date and time, the day of the week and the daylight saving
    flag. *)
Theorem C49_date_fields : forall z ns y m d,
  let t := sec_of ns + z_std z + (if z_dst z (sec_of ns) then 3600 else 0) in
  let n := Z.to_nat (t / 86400) in
  0 <= t -> calendar n = (y, m, d) -> y < 2156 ->
  canopen_date z ns
  = le_bytes 2 (Z.to_N (Z.of_N ns / 1000000 mod 60000))
    ++ [Z.to_N (t mod 3600 / 60);
        Z.to_N (t mod 86400 / 3600 + (if z_dst z (sec_of ns) then 128 else 0));
        Z.to_N (d + 32 * weekday n); Z.to_N m; Z.to_N (y mod 100)].
Proof. exact date_bytes. Qed.
Print Assumptions C49_date_fields.

(** Decoding gives the instant to the millisecond, in every zone whose offset is in whole minutes, for
    every local date from 1970 to 2069. *)
Theorem C49_date : forall z ns y m d,
  let t := sec_of ns + z_std z + (if z_dst z (sec_of ns) then 3600 else 0) in
  let n := Z.to_nat (t / 86400) in
  z_std z mod 60 = 0 -> 0 <= t -> calendar n = (y, m, d) -> y <= 2069 -> (ns < 2 ^ 64)%N ->
  date_of_canopen z (canopen_date z ns) = Ok (ns - ns mod 1000000)%N.
Proof. exact date_roundtrip. Qed.
Print Assumptions C49_date.

(** The arrays are not checked: one that is too short is read out of bounds. *)
Theorem C49_short_array_refuted : forall z b,
  ((length b < 6)%nat -> time_of_canopen z b = UB) /\ ((length b < 7)%nat -> date_of_canopen z b = UB).
Proof.
  intros z b. unfold time_of_canopen, date_of_canopen. split; intros H.
  - replace (N.of_nat (length b) <? 6)%N with true by lia. reflexivity.
  - replace (N.of_nat (length b) <? 7)%N with true by lia. reflexivity.
Qed.
Print Assumptions C49_short_array_refuted.

Definition ex_zone : zone := mkZone 3600 (fun t => (17000000 <? t) && (t <? 1600000000)).
Example C49_witness :
  canopen_date ex_zone 1583000998123456789 = [11; 227; 29; 148; 221; 2; 20]%N
  /\ date_of_canopen ex_zone (canopen_date ex_zone 1583000998123456789) = Ok 1583000998123000000%N
  /\ time_of_canopen ex_zone (canopen_time ex_zone 1583000998123456789) = Ok 1583000998123000000%N.
Proof.
  split; [vm_compute; reflexivity|]. split.
  - assert (C : calendar (N.to_nat 18321) = (2020, 2, 29)) by (vm_compute; reflexivity).
    apply (C49_date ex_zone 1583000998123456789 2020 2 29).
    + reflexivity.
    + vm_compute. discriminate.
    + assert (Q : Z.to_nat ((sec_of 1583000998123456789 + z_std ex_zone
          + (if z_dst ex_zone (sec_of 1583000998123456789) then 3600 else 0)) / 86400) = N.to_nat 18321) by (vm_compute; reflexivity).
      rewrite Q. exact C.
    + discriminate.
    + reflexivity.
  - apply (C49_time ex_zone 1583000998123456789).
    + vm_compute. discriminate.
    + split; vm_compute; [discriminate|reflexivity].
    + reflexivity.
Qed.

(* ------------------------------------------------------------------ *)
(** * C62 *)

Definition stamp_kind (t : stamp) : kind := match t with StUtc _ => KUtc | StLocal _ => KLocal | StZone _ _ _ => KZone end.
Definition stamp_tz (t : stamp) : Z := match t with StZone _ tz _ => tz | _ => 0 end.
Definition stamp_dst (t : stamp) : Z := match t with StZone _ _ dst => dst | _ => 0 end.
Definition stamp_ok (t : stamp) : Prop :=
  (stamp_ns t < 2 ^ 64)%N /\ - 2 ^ 15 <= stamp_tz t < 2 ^ 15 /\ - 2 ^ 15 <= stamp_dst t < 2 ^ 15.
Definition kind_of (t : time_type) : option kind :=
  match t with UtcTime => Some KUtc | LocalTime => Some KLocal | TimezoneTime => Some KZone | LocalTimeTz => None end.

(** MDF 4: the time stamp set on a header or a file history is written in 13 bytes, and a reader gets the
    nanoseconds, the kind, and both offsets (as 16 bits, negative ones in two's complement). *)
Theorem C62_mdf4 : forall t, stamp_ok t ->
  length (ts4_bytes (ts4_set t)) = 13%nat /\
  let r := ts4_read (ts4_bytes (ts4_set t)) in
  ts4_ns r = stamp_ns t /\ kind_of (ts4_type r) = Some (stamp_kind t)
  /\ twos 16 (ts4_tz r) = stamp_tz t /\ twos 16 (ts4_dst r) = stamp_dst t.
Proof.
  intros t (A & B & C). split.
  - unfold ts4_bytes. rewrite !app_length, !le_bytes_length. reflexivity.
  - cbn zeta. destruct t as [n|n|n tz dst]; cbn [stamp_ns stamp_tz stamp_dst stamp_kind] in *;
      rewrite ts4_roundtrip by (cbn; auto; lia); unfold ts4_tz, ts4_dst; cbn [ts4_set t4_tz t4_dst];
      rewrite !twos16 by auto; repeat split; reflexivity.
Qed.
Print Assumptions C62_mdf4.

(** The same for a time given as plain nanoseconds, which are UTC. *)
Theorem C62_mdf4_ns : forall ns, ts4_set_ns ns = ts4_set (StUtc ns).
Proof. reflexivity. Qed.
Print Assumptions C62_mdf4_ns.

(** The offsets are handed out as unsigned numbers: five hours west, -300 minutes, is 65236. *)
Theorem C62_mdf4_west_refuted : exists t, stamp_ok t /\ stamp_tz t = -300 /\
  ts4_tz (ts4_read (ts4_bytes (ts4_set t))) = 65236%N.
Proof. exists (StZone 0 (-300) 60). unfold stamp_ok. cbn. repeat split; try lia. Qed.
Print Assumptions C62_mdf4_west_refuted.

(** MDF 3, a time with its zone: the header holds the date and the time of day on the local clock, the
    nanoseconds of local standard time, and the offset when it is in whole hours. *)
Theorem C62_mdf3_zone_partial : forall m n tz dst,
  let t := Z.of_N n / 1000000000 + (tz + dst) * 60 in
  0 <= t -> 0 <= Z.of_N n + tz * 60000000000 < 2 ^ 64 -> - 2 ^ 15 <= tz < 2 ^ 15 -> tz mod 60 = 0 ->
  let r := ts3_set m (StZone n tz dst) in
  t3_date r = dmy_text (calendar (Z.to_nat (t / 86400)))
  /\ t3_time r = clock_text true (t mod 86400 / 3600) (t mod 3600 / 60) (t mod 60)
  /\ ts3_ns r = Z.to_N (Z.of_N n + tz * 60000000000)
  /\ twos 16 (ts3_tz r) = tz.
Proof.
  intros m n tz dst t P R T H r. unfold r, ts3_set.
  assert (E : sec_of n + (tz + dst) * 60 = t) by (unfold sec_of, t; lia). rewrite E.
  cbn [t3_date t3_time]. unfold ts3_ns, ts3_tz. cbn [t3_local t3_utc_offset].
  rewrite printed_dmy, printed_clock by auto. split; [reflexivity|]. split; [reflexivity|]. split.
  - unfold w64, to_u64. apply N2Z.inj.
    rewrite N2Z.inj_mod, N2Z.inj_add, N2Z.inj_mod, N2Z.inj_mul, !Z2N.id by (try apply Z.mod_pos_bound; lia).
    change (Z.of_N (2 ^ 64)) with (2 ^ 64). change (Z.of_N 60000000000) with 60000000000.
    rewrite Z.mul_mod_idemp_l by lia. rewrite Z.add_mod_idemp_r by lia.
    rewrite Z.mod_small by lia. reflexivity.
  - replace (Z.quot tz 60 * 60) with tz.
    + apply twos16. exact T.
    + apply Z.mod_divide in H; [|lia]. destruct H as [k ->]. rewrite Z.quot_mul by lia. reflexivity.
Qed.
Print Assumptions C62_mdf3_zone_partial.

(** MDF 3, a UTC time on a machine at or east of Greenwich: local date and time, local nanoseconds and the
    whole hours of the offset. *)
Theorem C62_mdf3_utc_partial : forall m n,
  let z := m_zone m in
  let t := sec_of n + z_std z + (if z_dst z (sec_of n) then 3600 else 0) in
  0 <= t -> 0 <= m_gmt m < 24 * 3600000000000 -> Z.of_N n + m_gmt m < 2 ^ 64 ->
  let r := ts3_set m (StUtc n) in
  t3_date r = dmy_text (calendar (Z.to_nat (t / 86400)))
  /\ t3_time r = clock_text true (t mod 86400 / 3600) (t mod 3600 / 60) (t mod 60)
  /\ ts3_ns r = Z.to_N (Z.of_N n + m_gmt m)
  /\ twos 16 (ts3_tz r) = m_gmt m / 3600000000000 * 60.
Proof.
  intros m n z t P G L r. unfold r, ts3_set, ts3_set_ns. fold z.
  cbn [t3_date t3_time]. unfold ts3_ns, ts3_tz. cbn [t3_local t3_utc_offset].
  assert (D : dmy (localtime z (sec_of n)) = dmy (gmtime t)) by reflexivity.
  assert (K : put_clock (localtime z (sec_of n)) = put_clock (gmtime t)) by reflexivity.
  rewrite D, K. rewrite printed_dmy, printed_clock by auto. split; [reflexivity|]. split; [reflexivity|].
  assert (U : to_u64 (m_gmt m) = Z.to_N (m_gmt m)) by (unfold to_u64; rewrite Z.mod_small by lia; reflexivity).
  split.
  - unfold w64. rewrite U. rewrite N.mod_small by lia. lia.
  - unfold gmt_hours, to_i16. rewrite U.
    assert (Q : (Z.to_N (m_gmt m) / 3600000000000 < 24)%N) by (clear - G; lia).
    assert (Q2 : Z.of_N (Z.to_N (m_gmt m) / 3600000000000) = m_gmt m / 3600000000000) by (clear - G; lia).
    rewrite N.mod_small by (change (2 ^ 16)%N with 65536%N; lia).
    assert (T : twos 16 (Z.to_N (m_gmt m) / 3600000000000) = m_gmt m / 3600000000000).
    { unfold twos. replace (Z.to_N (m_gmt m) / 3600000000000 <? 2 ^ (16 - 1))%N with true
        by (change (2 ^ (16 - 1))%N with 32768%N; lia). exact Q2. }
    rewrite T. apply twos16. change (2 ^ 15) with 32768. lia.
Qed.
Print Assumptions C62_mdf3_utc_partial.

(** On a machine five hours west of Greenwich the offset in an MDF 3 header is 12282 hours: the signed
    nanoseconds are divided as an unsigned number. *)
Theorem C62_mdf3_west_refuted : forall z n,
  t3_utc_offset (ts3_set (mkMachine (-5 * 3600000000000) 0 z) (StUtc n)) = 12282.
Proof. intros. vm_compute. reflexivity. Qed.
Print Assumptions C62_mdf3_west_refuted.

(** A zone with a half hour loses it in an MDF 3 file: India, 330 minutes, is read as 300. *)
Theorem C62_mdf3_half_hour_refuted : forall m n dst, ts3_tz (ts3_set m (StZone n 330 dst)) = 300%N.
Proof. intros. reflexivity. Qed.
Print Assumptions C62_mdf3_half_hour_refuted.

Example C62_witness :
  stamp_ok (StZone 1583000998123456789 120 60) /\
  t3_date (ts3_set (mkMachine 0 0 ex_zone) (StZone 1583000998123456789 120 60)) = [50; 57; 58; 48; 50; 58; 50; 48; 50; 48]%N /\
  t3_time (ts3_set (mkMachine 0 0 ex_zone) (StZone 1583000998123456789 120 60)) = [50; 49; 58; 50; 57; 58; 53; 56]%N.
Proof. split; [unfold stamp_ok; cbn; lia|]. split; vm_compute; reflexivity. Qed.
