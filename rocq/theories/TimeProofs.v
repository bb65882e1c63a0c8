(** Proofs about the calendar: timegm and gmtime agree with counting days. *)
From Verif Require Import Base TimeModel TimeSpec.
Local Open Scope Z_scope.

Lemma leap_eq : forall y, is_leap y = leap_yearb y.
Proof.
  intros y. unfold is_leap, leap_yearb.
  destruct (Z.eqb_spec (y mod 4) 0), (Z.eqb_spec (y mod 100) 0), (Z.eqb_spec (y mod 400) 0); cbn; try reflexivity; lia.
Qed.

(** The day number of a date by the formula of timegm. *)
Definition day_no (x : date) : Z := let '(y, m, d) := x in posix_days (y - 1900) (m - 1) d.
Definition real (x : date) : Prop := let '(y, m, d) := x in real_date y m d.

Lemma month_cases : forall m, 1 <= m <= 12 ->
  m = 1 \/ m = 2 \/ m = 3 \/ m = 4 \/ m = 5 \/ m = 6 \/ m = 7 \/ m = 8 \/ m = 9 \/ m = 10 \/ m = 11 \/ m = 12.
Proof. intros; lia. Qed.
Ltac months H := destruct (month_cases _ H) as [->|[->|[->|[->|[->|[->|[->|[->|[->|[->|[->| ->]]]]]]]]]]].

Lemma mon_len : forall y m, 1 <= m <= 12 ->
  mon_yday (is_leap y) m = mon_yday (is_leap y) (m - 1) + days_in_month y m.
Proof.
  intros y m H. rewrite leap_eq. unfold days_in_month. destruct (leap_yearb y); months H; reflexivity.
Qed.

Lemma year_start : forall y,
  posix_days (y + 1 - 1900) 0 1 = posix_days (y - 1900) 0 1 + (if is_leap y then 366 else 365).
Proof.
  intros y. unfold posix_days.
  replace (1900 + (y + 1 - 1900)) with (y + 1) by lia. replace (1900 + (y - 1900)) with y by lia.
  assert (E : forall b, mon_yday b 0 = 0) by (intros []; reflexivity). rewrite !E.
  unfold is_leap.
  destruct (Z.eqb_spec (y mod 4) 0), (Z.eqb_spec (y mod 100) 0), (Z.eqb_spec (y mod 400) 0); cbn [andb orb negb]; lia.
Qed.

Lemma day_no_split : forall y m d, 1 <= m <= 12 ->
  day_no (y, m, d) = posix_days (y - 1900) 0 1 + mon_yday (is_leap y) (m - 1) + (d - 1).
Proof.
  intros y m d H. unfold day_no, posix_days. replace (1900 + (y - 1900)) with y by lia.
  assert (E : mon_yday (is_leap y) 0 = 0) by (destruct (is_leap y); reflexivity). rewrite E. lia.
Qed.

Lemma yday_total : forall b, mon_yday b 12 = (if b then 366 else 365).
Proof. intros []; reflexivity. Qed.

Lemma dim_pos : forall y m, 28 <= days_in_month y m <= 31.
Proof.
  intros y m. unfold days_in_month. destruct (m =? 2); [destruct (leap_yearb y); lia|].
  destruct ((m =? 4) || (m =? 6) || (m =? 9) || (m =? 11))%bool; lia.
Qed.

Lemma next_real : forall x, real x -> real (next_day x).
Proof.
  intros [[y m] d] (Y & M & D). unfold next_day, real.
  destruct (Z.ltb_spec d (days_in_month y m)).
  - repeat split; lia.
  - destruct (Z.ltb_spec m 12).
    + pose proof (dim_pos y (m + 1)). repeat split; lia.
    + pose proof (dim_pos (y + 1) 1). repeat split; lia.
Qed.

Lemma next_no : forall x, real x -> day_no (next_day x) = day_no x + 1.
Proof.
  intros [[y m] d] (Y & M & D). unfold next_day.
  destruct (Z.ltb_spec d (days_in_month y m)).
  - rewrite !day_no_split by lia. lia.
  - assert (d = days_in_month y m) by lia. destruct (Z.ltb_spec m 12).
    + rewrite !day_no_split by lia. replace (m + 1 - 1) with m by lia. rewrite (mon_len y m M). lia.
    + assert (m = 12) by lia. subst m. rewrite !day_no_split by lia.
      replace (y + 1 - 1900) with (y + 1 - 1900) by lia. rewrite year_start.
      pose proof (mon_len y 12 M) as L. rewrite yday_total in L. change (1 - 1) with 0.
      assert (E : mon_yday (is_leap (y + 1)) 0 = 0) by (destruct (is_leap (y + 1)); reflexivity). rewrite E. lia.
Qed.

Lemma calendar_real : forall n, real (calendar n).
Proof.
  induction n; cbn [calendar].
  - repeat split; cbn; lia.
  - apply next_real; auto.
Qed.
Lemma calendar_no : forall n, day_no (calendar n) = Z.of_nat n.
Proof.
  induction n; cbn [calendar].
  - reflexivity.
  - rewrite next_no by apply calendar_real. lia.
Qed.

(** Years are monotone. *)
Lemma year_mono : forall k y, posix_days (y + Z.of_nat k - 1900) 0 1 >= posix_days (y - 1900) 0 1 + 365 * Z.of_nat k.
Proof.
  induction k; intros y.
  - replace (y + Z.of_nat 0) with y by lia. lia.
  - replace (y + Z.of_nat (S k) - 1900) with (y + Z.of_nat k + 1 - 1900) by lia.
    rewrite year_start. specialize (IHk y). destruct (is_leap (y + Z.of_nat k)); lia.
Qed.

Lemma yday_bound : forall y m d, real_date y m d ->
  0 <= mon_yday (is_leap y) (m - 1) + (d - 1) < (if is_leap y then 366 else 365).
Proof.
  intros y m d (Y & M & D). pose proof (mon_len y m M) as L.
  assert (B : forall b k, 1 <= k <= 12 -> 0 <= mon_yday b (k - 1) /\ mon_yday b k <= mon_yday b 12)
    by (intros b k K; destruct b; months K; vm_compute; split; discriminate).
  pose proof (B (is_leap y) m M) as [B1 B2]. rewrite yday_total in B2. lia.
Qed.

Lemma year_lt : forall y1 m1 d1 y2 m2 d2, real_date y1 m1 d1 -> real_date y2 m2 d2 -> y1 < y2 ->
  day_no (y1, m1, d1) < day_no (y2, m2, d2).
Proof.
  intros y1 m1 d1 y2 m2 d2 R1 R2 L.
  rewrite !day_no_split by (destruct R1 as (? & ? & ?), R2 as (? & ? & ?); assumption).
  pose proof (yday_bound _ _ _ R1). pose proof (yday_bound _ _ _ R2).
  pose proof (year_start y1) as A.
  pose proof (year_mono (Z.to_nat (y2 - (y1 + 1))) (y1 + 1)) as B.
  replace (y1 + 1 + Z.of_nat (Z.to_nat (y2 - (y1 + 1))) - 1900) with (y2 - 1900) in B by lia.
  destruct (is_leap y1), (is_leap y2); lia.
Qed.

Lemma yday_mono : forall y m1 m2, 1 <= m1 -> m1 < m2 -> m2 <= 12 ->
  mon_yday (is_leap y) (m1 - 1) + days_in_month y m1 <= mon_yday (is_leap y) (m2 - 1).
Proof.
  intros y m1 m2 A B C.
  assert (M1 : 1 <= m1 <= 12) by lia. assert (M2 : 1 <= m2 <= 12) by lia.
  unfold days_in_month. rewrite leap_eq. destruct (leap_yearb y); months M1; months M2; try lia; vm_compute; discriminate.
Qed.

Lemma day_no_inj : forall x1 x2, real x1 -> real x2 -> day_no x1 = day_no x2 -> x1 = x2.
Proof.
  intros [[y1 m1] d1] [[y2 m2] d2] R1 R2 E. cbn [real] in R1, R2.
  assert (y1 = y2).
  { destruct (Z.lt_trichotomy y1 y2) as [L|[L|L]]; auto.
    - pose proof (year_lt _ _ _ _ _ _ R1 R2 L). lia.
    - pose proof (year_lt _ _ _ _ _ _ R2 R1 L). lia. }
  subst y2. destruct R1 as (Y & M1 & D1), R2 as (_ & M2 & D2).
  rewrite !day_no_split in E by lia.
  assert (m1 = m2).
  { destruct (Z.lt_trichotomy m1 m2) as [L|[L|L]]; auto.
    - pose proof (yday_mono y1 m1 m2 ltac:(lia) L ltac:(lia)). lia.
    - pose proof (yday_mono y1 m2 m1 ltac:(lia) L ltac:(lia)). lia. }
  subst m2. f_equal. lia.
Qed.

(** Every date from 1970 on is in the calendar. *)
Lemma calendar_all : forall y m d, real_date y m d ->
  calendar (Z.to_nat (day_no (y, m, d))) = (y, m, d) /\ 0 <= day_no (y, m, d).
Proof.
  intros y m d R.
  assert (P : 0 <= day_no (y, m, d)).
  { destruct R as (Y & M & D). assert (R : real_date y m d) by (repeat split; lia).
    rewrite day_no_split by lia. pose proof (yday_bound _ _ _ R).
    pose proof (year_mono (Z.to_nat (y - 1970)) 1970) as B.
    replace (1970 + Z.of_nat (Z.to_nat (y - 1970)) - 1900) with (y - 1900) in B by lia.
    change (posix_days (1970 - 1900) 0 1) with 0 in B. lia. }
  split; auto. apply day_no_inj; auto.
  - apply calendar_real.
  - rewrite calendar_no. lia.
Qed.

(** gmtime takes years and months. *)
Lemma take_years_ok : forall fuel y days, 0 <= days -> days < 365 * Z.of_nat fuel ->
  let '(y', d') := take_years fuel y days in
  y <= y' /\ posix_days (y' - 1900) 0 1 + d' = posix_days (y - 1900) 0 1 + days
  /\ 0 <= d' < (if is_leap y' then 366 else 365).
Proof.
  induction fuel; intros y days P F; [lia|].
  cbn [take_years]. destruct (Z.ltb_spec days (if is_leap y then 366 else 365)) as [L|L].
  - repeat split; lia.
  - specialize (IHfuel (y + 1) (days - (if is_leap y then 366 else 365))).
    destruct (take_years fuel (y + 1) (days - (if is_leap y then 366 else 365))) as [y' d'].
    destruct IHfuel as (A & B & C); [lia|destruct (is_leap y); lia|].
    rewrite year_start in B. repeat split; lia.
Qed.

Ltac ydays := repeat match goal with
  | |- context [mon_yday true ?k] => let v := eval vm_compute in (mon_yday true k) in change (mon_yday true k) with v
  | |- context [mon_yday false ?k] => let v := eval vm_compute in (mon_yday false k) in change (mon_yday false k) with v
  end.
Lemma take_months_ok : forall (b : bool) d, 0 <= d < (if b then 366 else 365) ->
  let '(mon, r) := take_months 11 b d in
  0 <= mon <= 11 /\ mon_yday b mon + r = d /\ 0 <= r /\ d < mon_yday b (mon + 1).
Proof.
  intros b d H. destruct b; cbn [take_months]; ydays;
  repeat match goal with
  | |- context [Z.leb ?x ?y] => destruct (Z.leb_spec x y)
  end; ydays; lia.
Qed.

Lemma gmtime_ok : forall t, 0 <= t ->
  let g := gmtime t in
  (tm_year g + 1900, tm_mon g + 1, tm_mday g) = calendar (Z.to_nat (t / 86400))
  /\ 0 <= tm_sec g < 60 /\ 0 <= tm_min g < 60 /\ 0 <= tm_hour g < 24
  /\ t = t / 86400 * 86400 + tm_hour g * 3600 + tm_min g * 60 + tm_sec g
  /\ tm_wday g = (4 + t / 86400) mod 7.
Proof.
  intros t P. unfold gmtime. cbn zeta.
  pose proof (take_years_ok (S (Z.to_nat (t / 86400 / 365))) 1970 (t / 86400)) as Y.
  destruct (take_years (S (Z.to_nat (t / 86400 / 365))) 1970 (t / 86400)) as [y yd].
  destruct Y as (Y1 & Y2 & Y3); [lia|lia|].
  pose proof (take_months_ok (is_leap y) yd Y3) as M.
  destruct (take_months 11 (is_leap y) yd) as [mon d]. destruct M as (M1 & M2 & M3 & M4).
  cbn [tm_year tm_mon tm_mday tm_sec tm_min tm_hour tm_wday].
  split; [|repeat split; lia].
  replace (y - 1900 + 1900) with y by lia.
  change (posix_days (1970 - 1900) 0 1) with 0 in Y2.
  assert (R : real_date y (mon + 1) (d + 1)).
  { repeat split; try lia. pose proof (mon_len y (mon + 1) ltac:(lia)) as L.
    replace (mon + 1 - 1) with mon in L by lia. lia. }
  apply day_no_inj; [exact R|apply calendar_real|].
  rewrite calendar_no, day_no_split by lia. replace (mon + 1 - 1) with mon by lia. lia.
Qed.

Lemma timegm_calendar : forall n y m d h mi s w i,
  calendar n = (y, m, d) ->
  timegm (mkTm s mi h d (m - 1) (y - 1900) w i) = Z.of_nat n * 86400 + h * 3600 + mi * 60 + s.
Proof.
  intros n y m d h mi s w i E. unfold timegm. cbn [tm_year tm_mon tm_mday tm_sec tm_min tm_hour].
  pose proof (calendar_no n) as N. rewrite E in N. cbn [day_no] in N. rewrite N. lia.
Qed.
