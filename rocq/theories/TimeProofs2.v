(** Proofs about ISO 8601 texts. *)
From Verif Require Import Base TimeModel TimeSpec TimeProofs.
Local Open Scope Z_scope.

Lemma decimal_length : forall k v, length (decimal k v) = k.
Proof. induction k; intros; cbn [decimal]; auto. rewrite app_length, IHk. cbn. lia. Qed.
Lemma decimal_digits : forall k v, Forall is_digit (decimal k v).
Proof.
  induction k; intros; cbn [decimal]; auto. apply Forall_app; split; auto. repeat constructor; lia.
Qed.
Lemma put_dec_decimal : forall k v, put_dec k v = decimal k v.
Proof.
  induction k; intros; cbn [decimal put_dec]; auto. rewrite IHk. do 2 f_equal. lia.
Qed.

Lemma written_app : forall a b, written (a ++ b) = written a * 10 ^ Z.of_nat (length b) + written b.
Proof.
  induction a; intros b; cbn [written app]; [lia|].
  rewrite IHa, app_length, Nat2Z.inj_add, Z.pow_add_r by lia. lia.
Qed.
Lemma written_decimal : forall k v, 0 <= v < 10 ^ Z.of_nat k -> written (decimal k v) = v.
Proof.
  induction k; intros v H; cbn [decimal]; [cbn in *; lia|].
  rewrite Nat2Z.inj_succ, Z.pow_succ_r in H by lia.
  rewrite written_app, IHk by lia. cbn [written length]. change (10 ^ Z.of_nat 0) with 1. change (10 ^ Z.of_nat 1) with 10. lia.
Qed.
Lemma written_bound : forall t, Forall is_digit t -> 0 <= written t < 10 ^ Z.of_nat (length t).
Proof.
  induction t; intros F; cbn [written length]; [cbn; lia|].
  inversion F; subst. specialize (IHt H2). unfold is_digit in H1.
  rewrite Nat2Z.inj_succ, Z.pow_succ_r by lia. nia.
Qed.
Lemma dec_val_written : forall t, Forall is_digit t -> Z.of_N (dec_val t) = written t.
Proof.
  intros t. unfold dec_val. 
  assert (G : forall t a, Forall is_digit t ->
    Z.of_N (fold_left (fun a c => (10 * a + (c - 48))%N) t a) = Z.of_N a * 10 ^ Z.of_nat (length t) + written t).
  { clear t. induction t; intros b F; cbn [fold_left written length]; [cbn; lia|].
    inversion F; subst. rewrite IHt by auto. unfold is_digit in H1.
    rewrite Nat2Z.inj_succ, Z.pow_succ_r by lia. nia. }
  intros F. rewrite G by auto. lia.
Qed.

Lemma dig : forall c, is_digit c ->
  isdigit c = true /\ (c =? 45)%N = false /\ (c =? 84)%N = false /\ (c =? 90)%N = false /\ (c =? 58)%N = false
  /\ (c =? 46)%N = false /\ (c =? 32)%N = false /\ (c =? 43)%N = false.
Proof. intros c [A B]. unfold isdigit. repeat split; lia. Qed.

Lemma stoi_digits : forall t, Forall is_digit t -> t <> [] -> written t < 2 ^ 31 -> stoi t = Some (written t).
Proof.
  intros t F NE L. destruct t as [|c r]; [congruence|].
  assert (D : is_digit c) by (inversion F; auto). destruct (dig c D) as (_ & Q45 & _ & _ & _ & _ & _ & Q43).
  unfold stoi. rewrite Q45, Q43. cbn zeta. rewrite dec_val_written by auto.
  pose proof (written_bound _ F).
  replace ((- 2 ^ 31 <=? written (c :: r)) && (written (c :: r) <=? 2 ^ 31 - 1))%bool with true by lia. reflexivity.
Qed.
Lemma stoi_signed : forall e t, Forall is_digit t -> t <> [] -> written t < 2 ^ 31 ->
  stoi (sign_char e :: t) = Some (if e then written t else - written t).
Proof.
  intros e t F NE L. destruct t as [|c r]; [congruence|]. pose proof (written_bound _ F).
  unfold stoi, sign_char. destruct e.
  - change ((43 =? 45)%N) with false. change ((43 =? 43)%N) with true. cbv iota beta zeta. rewrite dec_val_written by auto.
    replace ((- 2 ^ 31 <=? written (c :: r)) && (written (c :: r) <=? 2 ^ 31 - 1))%bool with true by lia. reflexivity.
  - change ((45 =? 45)%N) with true. cbv iota beta zeta. rewrite dec_val_written by auto.
    replace ((- 2 ^ 31 <=? - written (c :: r)) && (- written (c :: r) <=? 2 ^ 31 - 1))%bool with true by lia. reflexivity.
Qed.

Lemma field_decimal : forall k v dflt shift lo hi lo',
  (0 < k)%nat -> 0 <= v < 10 ^ Z.of_nat k -> v < 2 ^ 31 -> lo <= v - shift <= hi ->
  field (decimal k v) dflt shift lo hi lo' = Some (v - shift).
Proof.
  intros k v dflt shift lo hi lo' K V V' R.
  assert (NE : decimal k v <> []) by (intros Q; pose proof (decimal_length k v); rewrite Q in *; cbn in *; lia).
  unfold field. destruct (decimal k v) eqn:E; [congruence|]. rewrite <- E in *.
  rewrite stoi_digits; auto using decimal_digits; rewrite written_decimal; auto.
  cbn zeta. replace ((v - shift <? lo) || (hi <? v - shift))%bool with false by lia. reflexivity.
Qed.

Lemma scan_cons : forall s c r, scan_text s (c :: r) = scan_text (scan_char s c) r.
Proof. reflexivity. Qed.
Lemma scan_app : forall a b s, scan_text s (a ++ b) = scan_text (scan_text s a) b.
Proof. intros. unfold scan_text. apply fold_left_app. Qed.

Lemma two_digits : forall v, exists a b, decimal 2 v = [a; b] /\ is_digit a /\ is_digit b.
Proof.
  intros v. pose proof (decimal_digits 2 v) as F. pose proof (decimal_length 2 v) as L.
  destruct (decimal 2 v) as [|a [|b [|c r]]]; try discriminate. inversion F; subst. inversion H2; subst. eauto.
Qed.
Lemma four_digits : forall v, exists a b c d, decimal 4 v = [a; b; c; d] /\ is_digit a /\ is_digit b /\ is_digit c /\ is_digit d.
Proof.
  intros v. pose proof (decimal_digits 4 v) as F. pose proof (decimal_length 4 v) as L.
  destruct (decimal 4 v) as [|a [|b [|c [|d [|e r]]]]]; try discriminate.
  repeat match goal with H : Forall _ (_ :: _) |- _ => inversion H; clear H; subst end. exists a, b, c, d. auto.
Qed.

Ltac facts :=
  repeat match goal with
  | H : is_digit ?c |- _ =>
      let D := fresh in pose proof (dig c H) as D; clear H;
      destruct D as (? & ? & ? & ? & ? & ? & ? & ?)
  end.
Ltac use := repeat match goal with
  | H : ?x = true |- context [?x] => rewrite H
  | H : ?x = false |- context [?x] => rewrite H
  end.
Ltac eat := rewrite scan_cons;
  match goal with |- scan_text (scan_char ?s ?c) _ = _ =>
    let E := fresh "E" in
    eassert (E : scan_char s c = _) by (unfold scan_char; cbn -[isdigit N.eqb]; use; cbn; use; cbn; reflexivity);
    rewrite E; clear E
  end.

Lemma scan_date : forall ed y m d sep rest, sep = 32%N \/ sep = 84%N ->
  scan_text scan0 (date_text ed (y, m, d) ++ sep :: rest)
  = scan_text (mkScan Hour (decimal 4 y) (decimal 2 m) (decimal 2 d) [] [] [] [] [] [] false) rest.
Proof.
  intros ed y m d sep rest S. unfold date_text.
  destruct (four_digits y) as (y1 & y2 & y3 & y4 & -> & ? & ? & ? & ?).
  destruct (two_digits m) as (m1 & m2 & -> & ? & ?). destruct (two_digits d) as (d1 & d2 & -> & ? & ?).
  facts. destruct S as [-> | ->]; destruct ed; cbn [app]; unfold scan0; repeat eat; reflexivity.
Qed.

Lemma scan_clock : forall et Y M D h mi s rest,
  scan_text (mkScan Hour Y M D [] [] [] [] [] [] false) (clock_text et h mi s ++ rest)
  = scan_text (mkScan Second Y M D (decimal 2 h) (decimal 2 mi) (decimal 2 s) [] [] [] false) rest.
Proof.
  intros et Y M D h mi s rest. unfold clock_text.
  destruct (two_digits h) as (h1 & h2 & -> & ? & ?). destruct (two_digits mi) as (m1 & m2 & -> & ? & ?).
  destruct (two_digits s) as (s1 & s2 & -> & ? & ?).
  facts. destruct et; cbn [app]; repeat eat; reflexivity.
Qed.

Lemma scan_milli : forall f Y M D H Mi Sc acc rest, Forall is_digit f -> (length Mi = 2)%nat ->
  scan_text (mkScan MilliSecond Y M D H Mi Sc acc [] [] false) (f ++ rest)
  = scan_text (mkScan MilliSecond Y M D H Mi Sc (acc ++ f) [] [] false) rest.
Proof.
  induction f; intros Y M D H Mi Sc acc rest F L.
  - cbn [app]. rewrite app_nil_r. reflexivity.
  - inversion F; subst. cbn [app]. rewrite scan_cons.
    assert (E : scan_char (mkScan MilliSecond Y M D H Mi Sc acc [] [] false) a
                = mkScan MilliSecond Y M D H Mi Sc (acc ++ [a]) [] [] false).
    { destruct (dig a H2) as (Q1 & _ & _ & _ & _ & Q2 & _ & _). unfold scan_char. cbn [d_st d_minute].
      rewrite Q1, Q2. unfold size_lt. rewrite L. reflexivity. }
    rewrite E, IHf by auto. rewrite <- app_assoc. reflexivity.
Qed.

Definition after_fraction (f : list N) : dstate := match f with [] => Second | _ => MilliSecond end.
Lemma scan_fraction : forall f Y M D H Mi Sc rest, Forall is_digit f -> (length Mi = 2)%nat ->
  scan_text (mkScan Second Y M D H Mi Sc [] [] [] false) (fraction_text f ++ rest)
  = scan_text (mkScan (after_fraction f) Y M D H Mi Sc f [] [] false) rest.
Proof.
  intros f Y M D H Mi Sc rest F L. destruct f as [|c r]; [reflexivity|].
  cbn [fraction_text after_fraction]. rewrite <- app_comm_cons, scan_cons.
  change (scan_char (mkScan Second Y M D H Mi Sc [] [] [] false) 46)
    with (mkScan MilliSecond Y M D H Mi Sc [] [] [] false).
  rewrite scan_milli by auto. reflexivity.
Qed.

(** The texts of the offset the scan collects. *)
Definition tz_hours (o : offset) : list N :=
  match o with
  | OffNone | OffZ => []
  | OffHours e h | OffMinutes e h _ => sign_char e :: decimal 2 h
  | OffBasic e h m => sign_char e :: decimal 2 h ++ decimal 2 m
  end.
Definition tz_minutes (o : offset) : list N := match o with OffMinutes _ _ m => decimal 2 m | _ => [] end.
Definition tz_utc (o : offset) : bool := match o with OffZ => true | _ => false end.
Lemma scan_offset : forall o f Y M D H Mi Sc,
  exists st, scan_text (mkScan (after_fraction f) Y M D H Mi Sc f [] [] false) (offset_text o)
  = mkScan st Y M D H Mi Sc f (tz_hours o) (tz_minutes o) (tz_utc o).
Proof.
  intros o f Y M D H Mi Sc.
  assert (A : forall e t,
    scan_text (mkScan (after_fraction f) Y M D H Mi Sc f [] [] false) (sign_char e :: t)
    = scan_text (mkScan TzHour Y M D H Mi Sc f [sign_char e] [] false) t)
    by (intros e t; rewrite scan_cons; destruct f, e; reflexivity).
  destruct o as [| |e h|e h m|e h m]; cbn [offset_text tz_hours tz_minutes tz_utc].
  - eexists; reflexivity.
  - exists (after_fraction f). destruct f; reflexivity.
  - rewrite A. destruct (two_digits h) as (h1 & h2 & -> & ? & ?). facts. exists TzHour.
    generalize (sign_char e); intros sg. repeat eat. reflexivity.
  - rewrite A. destruct (two_digits h) as (h1 & h2 & -> & ? & ?). destruct (two_digits m) as (m1 & m2 & -> & ? & ?).
    facts. exists TzMinute. generalize (sign_char e); intros sg. cbn [app]. repeat eat. reflexivity.
  - rewrite A. destruct (two_digits h) as (h1 & h2 & -> & ? & ?). destruct (two_digits m) as (m1 & m2 & -> & ? & ?).
    facts. exists TzHour. generalize (sign_char e); intros sg. cbn [app]. repeat eat. reflexivity.
Qed.

Lemma scan_iso : forall ed et sep y m d h mi s f o, sep = 32%N \/ sep = 84%N -> Forall is_digit f ->
  exists st, scan_text scan0 (iso_text ed et sep (y, m, d) h mi s f o)
  = mkScan st (decimal 4 y) (decimal 2 m) (decimal 2 d) (decimal 2 h) (decimal 2 mi) (decimal 2 s) f
      (tz_hours o) (tz_minutes o) (tz_utc o).
Proof.
  intros ed et sep y m d h mi s f o S F. unfold iso_text. cbn [app]. rewrite scan_date by auto.
  rewrite scan_clock, scan_fraction by (auto using decimal_length). apply scan_offset.
Qed.

(** What the code takes the offset (in minutes) and the fraction (in nanoseconds) to be. *)
Definition code_minutes (o : offset) : Z :=
  match o with
  | OffNone | OffZ => 0
  | OffHours e h => if e then 60 * h else - (60 * h)
  | OffMinutes e h m => (if e then 60 * h else - (60 * h)) + m
  | OffBasic e h m => if e then 60 * (100 * h + m) else - (60 * (100 * h + m))
  end.
Definition code_fraction (f : list N) : Z :=
  if written f <? 2 ^ 64
  then written f * (if Nat.leb (length f) 3 then 1000000 else if Nat.leb (length f) 6 then 1000 else 1)
  else 0.

Lemma in_int_small : forall z, - 2 ^ 31 <= z < 2 ^ 31 -> in_int z = true.
Proof. intros z H. unfold in_int. lia. Qed.

Lemma factor_eq : forall n,
  Z.of_N (if (N.of_nat n <=? 3)%N then 1000000%N else if (N.of_nat n <=? 6)%N then 1000%N else 1%N)
  = (if Nat.leb n 3 then 1000000 else if Nat.leb n 6 then 1000 else 1).
Proof.
  intros n. destruct (N.leb_spec (N.of_nat n) 3), (Nat.leb_spec n 3); try lia.
  destruct (N.leb_spec (N.of_nat n) 6), (Nat.leb_spec n 6); lia.
Qed.

Lemma finish_ok : forall old st n y m d h mi s f o,
  calendar n = (y, m, d) -> y <= 9999 -> 0 <= h < 24 -> 0 <= mi < 60 -> 0 <= s < 60 ->
  Forall is_digit f -> offset_valid o ->
  finish old (mkScan st (decimal 4 y) (decimal 2 m) (decimal 2 d) (decimal 2 h) (decimal 2 mi) (decimal 2 s) f
                (tz_hours o) (tz_minutes o) (tz_utc o))
  = Ok (Z.to_N (((Z.of_nat n * 86400 + h * 3600 + mi * 60 + s - 60 * code_minutes o) * 1000000000
                 + code_fraction f) mod 2 ^ 64)).
Proof.
  intros old st n y m d h mi s f o C Y H Mi Sc F O.
  pose proof (calendar_real n) as R. rewrite C in R. destruct R as (R1 & R2 & R3). pose proof (dim_pos y m).
  unfold finish. cbn [d_year d_month d_day d_hour d_minute d_second d_milli d_tzh d_tzm d_utc].
  rewrite (field_decimal 4 y) by (cbn; lia).
  rewrite (field_decimal 2 m) by (cbn; lia). rewrite (field_decimal 2 d) by (cbn; lia).
  rewrite (field_decimal 2 h) by (cbn; lia). rewrite (field_decimal 2 mi) by (cbn; lia).
  rewrite (field_decimal 2 s) by (cbn; lia).
  rewrite !Z.sub_0_r. rewrite (timegm_calendar n) by auto.
  assert (TZ : exists tzh tzm,
    match tz_hours o with [] => Some 0 | _ => stoi (tz_hours o) end = Some tzh
    /\ match tz_minutes o with [] => Some 0 | _ => stoi (tz_minutes o) end = Some tzm
    /\ tzh * 60 + tzm = code_minutes o /\ - 10000 <= tzh <= 10000 /\ 0 <= tzm < 60).
  { destruct o as [| |e hh|e hh mm|e hh mm]; cbn [tz_hours tz_minutes code_minutes offset_valid] in *.
    - exists 0, 0. repeat split; lia.
    - exists 0, 0. repeat split; lia.
    - exists (if e then hh else - hh), 0.
      assert (W : written (decimal 2 hh) = hh) by (apply written_decimal; cbn; lia).
      rewrite stoi_signed by (auto using decimal_digits; try (rewrite W; lia); intros Q; pose proof (decimal_length 2 hh); rewrite Q in *; cbn in *; lia).
      rewrite W. repeat split; destruct e; lia.
    - exists (if e then hh else - hh), mm.
      assert (W : written (decimal 2 hh) = hh) by (apply written_decimal; cbn; lia).
      assert (W' : written (decimal 2 mm) = mm) by (apply written_decimal; cbn; lia).
      rewrite stoi_signed by (auto using decimal_digits; try (rewrite W; lia); intros Q; pose proof (decimal_length 2 hh); rewrite Q in *; cbn in *; lia).
      assert (NE : decimal 2 mm <> []) by (intros Q; pose proof (decimal_length 2 mm); rewrite Q in *; cbn in *; lia).
      pose proof (stoi_digits (decimal 2 mm) (decimal_digits 2 mm) NE ltac:(rewrite W'; lia)) as SM.
      rewrite W, SM, W'. destruct (decimal 2 mm); [congruence|]. repeat split; destruct e; lia.
    - exists (if e then 100 * hh + mm else - (100 * hh + mm)), 0.
      assert (W : written (decimal 2 hh ++ decimal 2 mm) = 100 * hh + mm).
      { rewrite written_app, decimal_length, !written_decimal by (cbn; lia). change (10 ^ Z.of_nat 2) with 100. lia. }
      rewrite stoi_signed.
      + rewrite W. repeat split; destruct e; lia.
      + apply Forall_app; split; apply decimal_digits.
      + intros Q. pose proof (decimal_length 2 hh). destruct (decimal 2 hh); discriminate.
      + rewrite W. lia. }
  destruct TZ as (tzh & tzm & E1 & E2 & E3 & B1 & B2). rewrite E1, E2.
  rewrite (in_int_small (tzh * 60)) by lia. rewrite (in_int_small (tzh * 60 + tzm)) by lia.
  rewrite (in_int_small ((tzh * 60 + tzm) * 60)) by lia. cbn [negb]. cbn zeta. rewrite E3.
  set (T := Z.of_nat n * 86400 + h * 3600 + mi * 60 + s) in *.
  assert (U : (if tz_utc o then T else T - code_minutes o * 60) = T - 60 * code_minutes o).
  { destruct o; cbn [tz_utc code_minutes]; lia. }
  rewrite U. set (u := T - 60 * code_minutes o) in *.
  assert (B : w64 (to_u64 u * 1000000000) = Z.to_N ((u * 1000000000) mod 2 ^ 64)).
  { unfold w64, to_u64. apply N2Z.inj. rewrite N2Z.inj_mod, N2Z.inj_mul, !Z2N.id by (apply Z.mod_pos_bound; lia).
    change (Z.of_N (2 ^ 64)) with (2 ^ 64). change (Z.of_N 1000000000) with 1000000000.
    rewrite Z.mul_mod_idemp_l by lia. reflexivity. }
  rewrite B. destruct f as [|c r].
  - unfold code_fraction. cbn [written length Nat.leb]. change (0 <? 2 ^ 64) with true. cbv iota.
    do 3 f_equal. lia.
  - set (f := c :: r) in *. unfold stoull, code_fraction.
    pose proof (dec_val_written f F) as W. pose proof (written_bound f F) as WB. unfold f at 1.
    destruct (Z.ltb_spec (written f) (2 ^ 64)) as [L|L].
    + assert (LL : (dec_val f <? 2 ^ 64)%N = true) by (apply N.ltb_lt; lia). fold f. rewrite LL.
      f_equal.
      pose proof (factor_eq (length f)) as K.
      rewrite <- K, <- W.
      generalize (if (N.of_nat (length f) <=? 3)%N then 1000000%N
                  else if (N.of_nat (length f) <=? 6)%N then 1000%N else 1%N). intros k.
      unfold w64. apply N2Z.inj.
      rewrite N2Z.inj_mod, N2Z.inj_add, N2Z.inj_mod, N2Z.inj_mul, !Z2N.id by (apply Z.mod_pos_bound; lia).
      change (Z.of_N (2 ^ 64)) with (2 ^ 64). rewrite <- Z.add_mod by lia. reflexivity.
    + assert (LL : (dec_val f <? 2 ^ 64)%N = false) by (apply N.ltb_ge; lia). fold f. rewrite LL.
      do 3 f_equal. lia.
Qed.

Lemma from_iso_exact : forall old ed et sep n y m d h mi s f o,
  sep = 32%N \/ sep = 84%N ->
  calendar n = (y, m, d) -> y <= 9999 -> 0 <= h < 24 -> 0 <= mi < 60 -> 0 <= s < 60 ->
  Forall is_digit f -> offset_valid o ->
  from_iso old (iso_text ed et sep (y, m, d) h mi s f o)
  = Ok (Z.to_N (((Z.of_nat n * 86400 + h * 3600 + mi * 60 + s - 60 * code_minutes o) * 1000000000
                 + code_fraction f) mod 2 ^ 64)).
Proof.
  intros old ed et sep n y m d h mi s f o S C Y H Mi Sc F O. unfold from_iso.
  destruct (scan_iso ed et sep y m d h mi s f o S F) as (st & ->). apply finish_ok; auto.
Qed.

Lemma fraction_code : forall f, Forall is_digit f ->
  (length f = 0 \/ length f = 3 \/ length f = 6 \/ length f = 9)%nat ->
  code_fraction f = fraction_ns f.
Proof.
  intros f F L. unfold code_fraction, fraction_ns. pose proof (written_bound f F) as B.
  assert (LT : written f <? 2 ^ 64 = true).
  { apply Z.ltb_lt. eapply Z.lt_le_trans; [apply B|]. destruct L as [L|[L|[L|L]]]; rewrite L; discriminate. }
  rewrite LT. destruct L as [L|[L|[L|L]]]; rewrite L; try reflexivity.
  destruct f; [reflexivity|discriminate].
Qed.

(** The text printed for an instant. *)
Lemma printed_date : forall t, 0 <= t -> put_date (gmtime t) = date_text true (calendar (Z.to_nat (t / 86400))).
Proof.
  intros t P. destruct (gmtime_ok t P) as (E & _). rewrite <- E. unfold put_date, date_text.
  rewrite !put_dec_decimal. reflexivity.
Qed.
Lemma printed_clock : forall t, 0 <= t ->
  put_clock (gmtime t) = clock_text true (t mod 86400 / 3600) (t mod 3600 / 60) (t mod 60).
Proof.
  intros t P. destruct (gmtime_ok t P) as (_ & S & M & H & E & _). unfold put_clock, clock_text.
  rewrite !put_dec_decimal.
  assert (tm_hour (gmtime t) = t mod 86400 / 3600) as -> by lia.
  assert (tm_min (gmtime t) = t mod 3600 / 60) as -> by lia.
  assert (tm_sec (gmtime t) = t mod 60) as -> by lia. reflexivity.
Qed.
Definition ms_text (b : bool) (ms : Z) : list N := if (0 <? ms) && b then decimal 3 ms else [].
Lemma printed_iso : forall b ns,
  let t := Z.of_N ns / 1000000000 in
  to_iso_date_time b ns
  = iso_text true true 84 (calendar (Z.to_nat (t / 86400))) (t mod 86400 / 3600) (t mod 3600 / 60) (t mod 60)
      (ms_text b (Z.of_N ns / 1000000 mod 1000)) OffZ.
Proof.
  intros b ns t. unfold to_iso_date_time, iso_text.
  assert (E : sec_of ns = t) by (unfold sec_of, t; lia). rewrite E.
  assert (P : 0 <= t) by (unfold t; lia). rewrite printed_date, printed_clock by auto.
  do 3 f_equal. unfold put_ms, ms_text.
  assert (M : Z.of_N ((ns / 1000000) mod 1000) = Z.of_N ns / 1000000 mod 1000) by lia. rewrite <- M.
  replace (0 <? Z.of_N ((ns / 1000000) mod 1000)) with (0 <? (ns / 1000000) mod 1000)%N by lia.
  destruct ((0 <? (ns / 1000000) mod 1000)%N && b)%bool; [|reflexivity].
  rewrite put_dec_decimal. unfold fraction_text.
  destruct (decimal 3 (Z.of_N ((ns / 1000000) mod 1000))) eqn:Q; [|reflexivity].
  pose proof (decimal_length 3 (Z.of_N ((ns / 1000000) mod 1000))) as L. rewrite Q in L. discriminate.
Qed.

Lemma calendar_early : forall n, Z.of_nat n < 3652059 - 719162 -> fst (fst (calendar n)) <= 9999.
Proof.
  intros n H. pose proof (calendar_real n) as R. pose proof (calendar_no n) as N.
  destruct (calendar n) as [[y m] d]. cbn [fst]. destruct (Z.le_gt_cases y 9999) as [|G]; auto. exfalso.
  assert (R2 : real_date 9999 12 31) by (repeat split; cbn; lia).
  pose proof (year_lt _ _ _ _ _ _ R2 R ltac:(lia)) as L. rewrite N in L.
  change (day_no (9999, 12, 31)) with 2932896 in L. lia.
Qed.

Lemma print_back : forall old b ns, (ns < 2 ^ 64)%N ->
  from_iso old (to_iso_date_time b ns)
  = Ok (if b then ns - ns mod 1000000 else ns - ns mod 1000000000)%N.
Proof.
  intros old b ns L. rewrite printed_iso. cbn zeta. set (t := Z.of_N ns / 1000000000).
  assert (P : 0 <= t < 18446744074) by (unfold t; lia).
  destruct (calendar (Z.to_nat (t / 86400))) as [[y m] d] eqn:C.
  assert (Y : y <= 9999).
  { pose proof (calendar_early (Z.to_nat (t / 86400))) as Q. rewrite C in Q. cbn [fst] in Q. apply Q. lia. }
  set (ms := Z.of_N ns / 1000000 mod 1000).
  assert (FD : Forall is_digit (ms_text b ms)).
  { unfold ms_text. destruct ((0 <? ms) && b)%bool; auto using decimal_digits. }
  rewrite (from_iso_exact old true true 84%N (Z.to_nat (t / 86400)) y m d); auto; try lia; [|exact Logic.I].
  assert (F : code_fraction (ms_text b ms) = if b then ms * 1000000 else 0).
  { rewrite fraction_code; auto.
    - unfold fraction_ns, ms_text. destruct b; [|rewrite andb_false_r; reflexivity].
      destruct (Z.ltb_spec 0 ms); cbn [andb].
      + rewrite decimal_length, written_decimal by (cbn; unfold ms; lia). reflexivity.
      + cbn. assert (ms = 0) by (unfold ms in *; lia). lia.
    - unfold ms_text. destruct ((0 <? ms) && b)%bool; [rewrite decimal_length|]; auto. }
  rewrite F. cbn [code_minutes]. f_equal. apply N2Z.inj. rewrite Z2N.id by (apply Z.mod_pos_bound; lia).
  rewrite Z2Nat.id by lia.
  replace ((t / 86400 * 86400 + t mod 86400 / 3600 * 3600 + t mod 3600 / 60 * 60 + t mod 60 - 60 * 0)) with t by lia.
  unfold ms. destruct b; rewrite Z.mod_small; unfold t; lia.
Qed.
