(** Proofs about dates alone, CANopen arrays and the time stamps of files. *)
From Verif Require Import Base TimeModel TimeSpec TimeProofs TimeProofs2.
Local Open Scope Z_scope.

Lemma scan_date_only : forall ed y m d (u : bool),
  scan_text scan0 (date_text ed (y, m, d) ++ (if u then [90%N] else []))
  = mkScan Day (decimal 4 y) (decimal 2 m) (decimal 2 d) [] [] [] [] [] [] u.
Proof.
  intros ed y m d u. unfold date_text.
  destruct (four_digits y) as (y1 & y2 & y3 & y4 & -> & ? & ? & ? & ?).
  destruct (two_digits m) as (m1 & m2 & -> & ? & ?). destruct (two_digits d) as (d1 & d2 & -> & ? & ?).
  facts. destruct u; destruct ed; cbn [app]; unfold scan0; repeat eat; reflexivity.
Qed.

Lemma date_only : forall old ed (u : bool) n y m d, calendar n = (y, m, d) -> y <= 9999 ->
  Z.of_nat n * 86400 * 1000000000 < 2 ^ 64 ->
  from_iso old (date_text ed (y, m, d) ++ (if u then [90%N] else []))
  = Ok (Z.to_N (Z.of_nat n * 86400 * 1000000000)).
Proof.
  intros old ed u n y m d C Y L. unfold from_iso. rewrite scan_date_only.
  pose proof (calendar_real n) as R. rewrite C in R. destruct R as (R1 & R2 & R3). pose proof (dim_pos y m).
  unfold finish. cbn [d_year d_month d_day d_hour d_minute d_second d_milli d_tzh d_tzm d_utc].
  rewrite (field_decimal 4 y) by (cbn; lia).
  rewrite (field_decimal 2 m) by (cbn; lia). rewrite (field_decimal 2 d) by (cbn; lia).
  rewrite !Z.sub_0_r. change (field [] 0 0 0 23 0) with (Some 0). change (field [] 0 0 0 59 0) with (Some 0).
  cbv iota beta. change (in_int (0 * 60)) with true. change (in_int (0 * 60 + 0)) with true.
  change (in_int ((0 * 60 + 0) * 60)) with true. cbn [negb]. cbn zeta. rewrite (timegm_calendar n) by auto.
  f_equal. replace (if u then Z.of_nat n * 86400 + 0 * 3600 + 0 * 60 + 0
                    else Z.of_nat n * 86400 + 0 * 3600 + 0 * 60 + 0 - (0 * 60 + 0) * 60) with (Z.of_nat n * 86400)
    by (destruct u; lia).
  unfold w64, to_u64. rewrite Z.mod_small by lia. lia.
Qed.

(* ------------------------------------------------------------------ *)
(** * CANopen *)

Lemma le_num_le_bytes : forall k v, (v < 256 ^ N.of_nat k)%N -> le_num (le_bytes k v) = v.
Proof.
  induction k; intros v H; cbn [le_bytes le_num].
  - cbn in H. lia.
  - rewrite Nat2N.inj_succ, N.pow_succ_r' in H. rewrite IHk by lia. lia.
Qed.

Lemma time_roundtrip : forall z ns,
  let ms := Z.of_N ns / 1000000 - sec_1984 z * 1000 in
  0 <= sec_1984 z -> 0 <= ms < 65536 * 86400000 -> (ns < 2 ^ 64)%N ->
  canopen_time z ns
  = le_bytes 4 (Z.to_N (ms mod 86400000)) ++ le_bytes 2 (Z.to_N (ms / 86400000))
  /\ time_of_canopen z (canopen_time z ns) = Ok (ns - ns mod 1000000)%N.
Proof.
  intros z ns ms S R L.
  assert (S' : sec_1984 z < 2 ^ 54) by (unfold ms in *; lia).
  assert (U : to_u64 (sec_1984 z) = Z.to_N (sec_1984 z)) by (unfold to_u64; rewrite Z.mod_small by lia; reflexivity).
  assert (M : w64 (ns / 1000000 + (2 ^ 64 - w64 (to_u64 (sec_1984 z) * 1000))) = Z.to_N ms).
  { rewrite U. unfold w64. rewrite (N.mod_small (Z.to_N (sec_1984 z) * 1000)) by lia.
    apply N2Z.inj. rewrite N2Z.inj_mod. unfold ms in *.
    replace (Z.of_N (ns / 1000000 + (2 ^ 64 - Z.to_N (sec_1984 z) * 1000)))
      with (Z.of_N ns / 1000000 - sec_1984 z * 1000 + 1 * 2 ^ 64) by lia.
    change (Z.of_N (2 ^ 64)) with (2 ^ 64). rewrite Z_mod_plus_full, Z.mod_small by lia. lia. }
  assert (E : canopen_time z ns
    = le_bytes 4 (Z.to_N (ms mod 86400000)) ++ le_bytes 2 (Z.to_N (ms / 86400000))).
  { unfold canopen_time. rewrite M. unfold w32, w16.
    assert (H1 : (Z.to_N ms mod 86400000 = Z.to_N (ms mod 86400000))%N) by (clearbody ms; clear - R; lia).
    assert (H2 : (Z.to_N ms / 86400000 = Z.to_N (ms / 86400000))%N) by (clearbody ms; clear - R; lia).
    cbn zeta. rewrite H1, H2.
    rewrite (N.mod_small (Z.to_N (ms mod 86400000))), (N.mod_small (Z.to_N (ms / 86400000)))
      by (change (2 ^ 16)%N with 65536%N; change (2 ^ 32)%N with 4294967296%N; clearbody ms; clear - R; lia).
    reflexivity. }
  split; [exact E|]. rewrite E. unfold time_of_canopen.
  assert (LN : (length (le_bytes 4 (Z.to_N (ms mod 86400000)) ++ le_bytes 2 (Z.to_N (ms / 86400000))) = 6)%nat)
    by (rewrite app_length, !le_bytes_length; reflexivity).
  rewrite LN. change (N.of_nat 6 <? 6)%N with false. cbv iota.
  assert (S1 : slice 0 4 (le_bytes 4 (Z.to_N (ms mod 86400000)) ++ le_bytes 2 (Z.to_N (ms / 86400000)))
               = le_bytes 4 (Z.to_N (ms mod 86400000))) by reflexivity.
  assert (S2 : slice 4 2 (le_bytes 4 (Z.to_N (ms mod 86400000)) ++ le_bytes 2 (Z.to_N (ms / 86400000)))
               = le_bytes 2 (Z.to_N (ms / 86400000))) by reflexivity.
  rewrite S1, S2.
  rewrite !le_num_le_bytes by (change (256 ^ N.of_nat 4)%N with 4294967296%N; change (256 ^ N.of_nat 2)%N with 65536%N;
    clearbody ms; clear - R; lia).
  cbn zeta. f_equal. rewrite U. unfold w64.
  assert (B : (Z.to_N (sec_1984 z) * 1000000000 + Z.to_N (ms / 86400000) * 24 * 3600000000000 + Z.to_N (ms mod 86400000) * 1000000
    = ns - ns mod 1000000)%N).
  { assert (EM : sec_1984 z * 1000 + ms = Z.of_N ns / 1000000) by (unfold ms; lia). clearbody ms. clear - EM R S. lia. }
  assert (LB : (Z.to_N (sec_1984 z) * 1000000000 + Z.to_N (ms / 86400000) * 24 * 3600000000000 + Z.to_N (ms mod 86400000) * 1000000
    < 2 ^ 64)%N) by (rewrite B; clear - L; lia).
  rewrite <- B. set (a := (Z.to_N (sec_1984 z) * 1000000000)%N) in *.
  set (b := (Z.to_N (ms / 86400000) * 24 * 3600000000000)%N) in *.
  set (c := (Z.to_N (ms mod 86400000) * 1000000)%N) in *. clearbody a b c. clear - LB.
  rewrite (N.mod_small a), (N.mod_small b), (N.mod_small c), (N.mod_small (a + b)), N.mod_small by lia. reflexivity.
Qed.

Lemma pack : forall a b, (a < 32)%N -> (b < 8)%N ->
  N.lor a (w8 (b * 32)) = (a + 32 * b)%N /\ N.land (a + 32 * b) 0x1F = a /\ N.shiftr (N.land (a + 32 * b) 0xE0) 5 = b.
Proof.
  assert (T : forallb (fun a => forallb (fun b =>
     (N.lor (N.of_nat a) (w8 (N.of_nat b * 32)) =? N.of_nat a + 32 * N.of_nat b)%N
     && (N.land (N.of_nat a + 32 * N.of_nat b) 0x1F =? N.of_nat a)%N
     && (N.shiftr (N.land (N.of_nat a + 32 * N.of_nat b) 0xE0) 5 =? N.of_nat b)%N) (seq 0 8)) (seq 0 32) = true)
    by (vm_compute; reflexivity).
  intros a b A B. rewrite forallb_forall in T. specialize (T (N.to_nat a) ltac:(apply in_seq; lia)).
  rewrite forallb_forall in T. specialize (T (N.to_nat b) ltac:(apply in_seq; lia)).
  rewrite !N2Nat.id in T. lia.
Qed.
Lemma pack_hour : forall h, (h < 32)%N ->
  N.lor h 0x80 = (h + 128)%N /\ N.land (h + 128) 0x1F = h /\ N.land 0x80 (h + 128) = 128%N
  /\ N.lor h 0 = h /\ N.land h 0x1F = h /\ N.land 0x80 h = 0%N.
Proof.
  assert (T : forallb (fun a => let h := N.of_nat a in
     (N.lor h 0x80 =? h + 128)%N && (N.land (h + 128) 0x1F =? h)%N && (N.land 0x80 (h + 128) =? 128)%N
     && (N.lor h 0 =? h)%N && (N.land h 0x1F =? h)%N && (N.land 0x80 h =? 0)%N) (seq 0 32) = true)
    by (vm_compute; reflexivity).
  intros h H. rewrite forallb_forall in T. specialize (T (N.to_nat h) ltac:(apply in_seq; lia)).
  rewrite !N2Nat.id in T. cbn zeta in T. lia.
Qed.
Lemma land_ones_small : forall a k, (a < 2 ^ k)%N -> N.land a (N.ones k) = a.
Proof. intros. rewrite N.land_ones, N.mod_small; auto. Qed.

Lemma weekday_mod : forall n, weekday n = (3 + Z.of_nat n) mod 7 + 1.
Proof.
  induction n; [reflexivity|]. cbn [weekday]. rewrite IHn.
  destruct (Z.eqb_spec ((3 + Z.of_nat n) mod 7 + 1) 7); lia.
Qed.

(** The local time of an instant: seconds from 1970-01-01T00:00:00 on the clock of the zone. *)
Definition local_sec (z : zone) (ns : N) : Z :=
  sec_of ns + z_std z + (if z_dst z (sec_of ns) then 3600 else 0).

Lemma byte_of_small : forall v, 0 <= v < 256 -> byte_of v = Z.to_N v.
Proof. intros. unfold byte_of. rewrite Z.mod_small by lia. reflexivity. Qed.

Lemma date_bytes : forall z ns y m d,
  let t := local_sec z ns in let n := Z.to_nat (t / 86400) in
  0 <= t -> calendar n = (y, m, d) -> y < 2156 ->
  canopen_date z ns
  = le_bytes 2 (Z.to_N (Z.of_N ns / 1000000 mod 60000))
    ++ [Z.to_N (t mod 3600 / 60);
        Z.to_N (t mod 86400 / 3600 + (if z_dst z (sec_of ns) then 128 else 0));
        Z.to_N (d + 32 * weekday n); Z.to_N m; Z.to_N (y mod 100)].
Proof.
  intros z ns y m d t n P C Y. unfold canopen_date, localtime. cbn zeta. fold t.
  change (sec_of ns + z_std z + (if z_dst z (sec_of ns) then 3600 else 0)) with t.
  destruct (gmtime_ok t P) as (E & S & M & H & T & W).
  fold n in E. rewrite C in E. pose proof (calendar_real n) as R. rewrite C in R. destruct R as (R1 & R2 & R3).
  pose proof (dim_pos y m) as DP. injection E as E1 E2 E3.
  cbn [tm_sec tm_min tm_hour tm_mday tm_mon tm_year tm_wday tm_isdst].
  assert (HM : tm_min (gmtime t) = t mod 3600 / 60) by (clear - T S M H; lia).
  assert (HH : tm_hour (gmtime t) = t mod 86400 / 3600) by (clear - T S M H; lia).
  rewrite E3. replace (1 + tm_mon (gmtime t)) with m by lia. replace (tm_year (gmtime t)) with (y - 1900) by lia.
  rewrite HM, HH. rewrite HM in M. rewrite HH in H. rewrite W.
  assert (WD : (if (4 + t / 86400) mod 7 =? 0 then 7 else (4 + t / 86400) mod 7) = weekday n).
  { rewrite weekday_mod. unfold n. rewrite Z2Nat.id by (clear - P; lia).
    destruct (Z.eqb_spec ((4 + t / 86400) mod 7) 0); lia. }
  rewrite WD. assert (WB : 1 <= weekday n <= 7) by (rewrite weekday_mod; lia).
  f_equal.
  - f_equal. unfold w16. rewrite (N.mod_small _ (2 ^ 16)) by (change (2 ^ 16)%N with 65536%N; lia). lia.
  - rewrite (byte_of_small (t mod 3600 / 60)) by lia. rewrite (byte_of_small (t mod 86400 / 3600)) by lia.
    rewrite (byte_of_small d) by lia. rewrite (byte_of_small (weekday n)) by lia. rewrite (byte_of_small m) by lia.
    f_equal. f_equal.
    { destruct (pack_hour (Z.to_N (t mod 86400 / 3600)) ltac:(clear - H; lia)) as (A & _ & _ & B & _).
      destruct (z_dst z (sec_of ns)); cbn [Z.eqb]; [change (1 =? 0) with false; cbv iota; rewrite A|rewrite B]; lia. }
    f_equal.
    { destruct (pack (Z.to_N d) (Z.to_N (weekday n)) ltac:(clear - R3 DP; lia) ltac:(clear - WB; lia)) as (A & _).
      rewrite A. lia. }
    f_equal. f_equal. rewrite byte_of_small; [|rewrite Z.rem_mod_nonneg by lia; lia].
    rewrite Z.rem_mod_nonneg by lia. f_equal. lia.
Qed.

Lemma date_roundtrip : forall z ns y m d,
  let t := local_sec z ns in let n := Z.to_nat (t / 86400) in
  z_std z mod 60 = 0 -> 0 <= t -> calendar n = (y, m, d) -> y <= 2069 -> (ns < 2 ^ 64)%N ->
  date_of_canopen z (canopen_date z ns) = Ok (ns - ns mod 1000000)%N.
Proof.
  intros z ns y m d t n Z0 P C Y L. unfold t in *; clear t.
  pose proof (date_bytes z ns y m d P C ltac:(lia)) as B. cbn zeta in B. set (t := local_sec z ns) in *.
  pose proof (calendar_real n) as R. rewrite C in R. destruct R as (R1 & R2 & R3). pose proof (dim_pos y m) as DP.
  assert (WB : 1 <= weekday n <= 7) by (rewrite weekday_mod; lia).
  fold n in B. rewrite B. unfold date_of_canopen.
  rewrite app_length, le_bytes_length. change (N.of_nat (2 + length _) <? 7)%N with false. cbv iota.
  set (ms := Z.to_N (Z.of_N ns / 1000000 mod 60000)).

  assert (MS : le_num (le_bytes 2 ms) = ms).
  { apply le_num_le_bytes. change (256 ^ N.of_nat 2)%N with 65536%N. unfold ms. lia. }
  cbn [le_bytes app nth].
  change (slice 0 2 _) with (le_bytes 2 ms). rewrite MS.
  assert (D5 : (Z.to_N (d + 32 * weekday n) = Z.to_N d + 32 * Z.to_N (weekday n))%N) by (clear - WB R3; lia).
  destruct (pack (Z.to_N d) (Z.to_N (weekday n)) ltac:(clear - R3 DP; lia) ltac:(clear - WB; lia)) as (_ & PD & _).
  rewrite D5, PD.
  change 0x3F%N with (N.ones 6). change 0x7F%N with (N.ones 7).
  rewrite (land_ones_small (Z.to_N (t mod 3600 / 60)) 6) by (change (2 ^ 6)%N with 64%N; lia).
  rewrite (land_ones_small (Z.to_N m) 6) by (change (2 ^ 6)%N with 64%N; lia).
  rewrite (land_ones_small (Z.to_N (y mod 100)) 7) by (change (2 ^ 7)%N with 128%N; lia).
  assert (HD : N.land (Z.to_N (t mod 86400 / 3600 + (if z_dst z (sec_of ns) then 128 else 0))) 0x1F = Z.to_N (t mod 86400 / 3600)
    /\ negb (N.land 0x80 (Z.to_N (t mod 86400 / 3600 + (if z_dst z (sec_of ns) then 128 else 0))) =? 0)%N = z_dst z (sec_of ns)).
  { assert (H : (Z.to_N (t mod 86400 / 3600) < 32)%N) by lia.
    destruct (pack_hour _ H) as (_ & A & A' & _ & B' & B'').
    destruct (z_dst z (sec_of ns)).
    - replace (Z.to_N (t mod 86400 / 3600 + 128)) with (Z.to_N (t mod 86400 / 3600) + 128)%N by lia.
      rewrite A, A'. split; reflexivity.
    - rewrite Z.add_0_r, B', B''. split; reflexivity. }
  destruct HD as [HD1 HD2]. rewrite HD1, HD2.
  assert (YR : (if (70 <=? Z.to_N (y mod 100))%N then Z.of_N (Z.to_N (y mod 100)) else 100 + Z.of_N (Z.to_N (y mod 100))) = y - 1900).
  { destruct (N.leb_spec 70 (Z.to_N (y mod 100))); lia. }
  cbn zeta. rewrite YR. rewrite !Z2N.id by lia.
  set (mt := mktime z _).
  assert (MT : mt = sec_of ns - sec_of ns mod 60).
  { unfold mt, mktime. rewrite (timegm_calendar n) by auto. cbn [tm_isdst].
    unfold n. rewrite Z2Nat.id by (clear - P; lia).
    assert (Q : t mod 60 = sec_of ns mod 60).
    { unfold t, local_sec. destruct (z_dst z (sec_of ns)); clear - Z0; lia. }
    assert (Q2 : t = sec_of ns + z_std z + (if z_dst z (sec_of ns) then 3600 else 0)) by reflexivity.
    destruct (z_dst z (sec_of ns)); cbn [Z.ltb]; [change (0 <? 1) with true|change (0 <? 0) with false]; cbv iota;
      clearbody t; clear - Q Q2; lia. }
  clearbody mt. rewrite MT. f_equal. unfold to_u64, w64, ms, sec_of.
  clear - L. rewrite (Z.mod_small _ (2 ^ 64)) by lia.
  assert (A : (Z.to_N (Z.of_N ns / 1000000 mod 60000) * 1000000
     + Z.to_N (Z.of_N (ns / 1000000000) - Z.of_N (ns / 1000000000) mod 60) * 1000000000 = ns - ns mod 1000000)%N) by lia.
  rewrite <- A. set (a := (Z.to_N (Z.of_N ns / 1000000 mod 60000) * 1000000)%N) in *.
  set (b := (Z.to_N (Z.of_N (ns / 1000000000) - Z.of_N (ns / 1000000000) mod 60) * 1000000000)%N) in *.
  assert (AB : (a + b < 2 ^ 64)%N) by (rewrite A; lia). clearbody a b. clear - AB.
  rewrite (N.mod_small a), (N.mod_small b), N.mod_small by lia. reflexivity.
Qed.

(* ------------------------------------------------------------------ *)
(** * Time stamps of files *)

Lemma twos16 : forall v, - 2 ^ 15 <= v < 2 ^ 15 -> twos 16 (Z.to_N (v mod 2 ^ 16)) = v.
Proof.
  intros v H. unfold twos. change (2 ^ (16 - 1))%N with 32768%N. change (Z.of_N (2 ^ 16)) with 65536.
  change (2 ^ 16) with 65536. change (2 ^ 15) with 32768 in H.
  destruct (N.ltb_spec (Z.to_N (v mod 65536)) 32768); lia.
Qed.

Lemma ts4_roundtrip : forall t, (t4_time t < 2 ^ 64)%N -> - 2 ^ 15 <= t4_tz t < 2 ^ 15 ->
  - 2 ^ 15 <= t4_dst t < 2 ^ 15 -> (t4_flags t < 256)%N -> ts4_read (ts4_bytes t) = t.
Proof.
  intros [a b c d]. cbn [t4_time t4_tz t4_dst t4_flags]. intros A B C D. unfold ts4_read, ts4_bytes.
  cbn [t4_time t4_tz t4_dst t4_flags].
  set (x := le_bytes 8 a). set (y := le_bytes 2 (Z.to_N (b mod 2 ^ 16))). set (z := le_bytes 2 (Z.to_N (c mod 2 ^ 16))).
  set (w := le_bytes 1 d).
  change (slice 0 8 (x ++ y ++ z ++ w)) with x. change (slice 8 2 (x ++ y ++ z ++ w)) with y.
  change (slice 10 2 (x ++ y ++ z ++ w)) with z. change (slice 12 1 (x ++ y ++ z ++ w)) with w.
  unfold x, y, z, w.
  rewrite (le_num_le_bytes 8) by (change (256 ^ N.of_nat 8)%N with (2 ^ 64)%N; exact A).
  rewrite (le_num_le_bytes 2 (Z.to_N (b mod 2 ^ 16))) by (change (256 ^ N.of_nat 2)%N with 65536%N; change (2 ^ 16) with 65536; lia).
  rewrite (le_num_le_bytes 2 (Z.to_N (c mod 2 ^ 16))) by (change (256 ^ N.of_nat 2)%N with 65536%N; change (2 ^ 16) with 65536; lia).
  rewrite (le_num_le_bytes 1) by (change (256 ^ N.of_nat 1)%N with 256%N; exact D).
  rewrite !twos16 by assumption. reflexivity.
Qed.

Lemma printed_dmy : forall t, 0 <= t -> dmy (gmtime t) = dmy_text (calendar (Z.to_nat (t / 86400))).
Proof.
  intros t P. destruct (gmtime_ok t P) as (E & _). rewrite <- E. unfold dmy, dmy_text.
  rewrite !put_dec_decimal. reflexivity.
Qed.
