(** C90: the value of a property is what was set, by the type of the value and the declared data type. *)
From Coq Require Import String Lia.
From Verif Require Import Base BlockModel TimeModel TimeSpec TimeProofs2 XmlModel XmlSpec XmlProofs4 CommentModel CommentSpec
  CommentProofs CommentProofs2 CommentProofs3 CommentProofs4 CommentProofs5 CommentProofs6 CommentProps NoteModel UnitModel UnitSpec UnitProps
  PvModel PvSpec PvProofs.
Local Open Scope N_scope.
Local Open Scope list_scope.

(** ** The same object *)

(** A number set at a property of type text, decimal, integer or floating point is read as it was set, one
    set at a property of type date and time to the millisecond. *)
Theorem C90_number : forall now p v, v < 2 ^ 64 -> p_type p <= 3 \/ p_type p = 7 ->
  get_number now (set_number v p) = Ok (kept_number (p_type p) v).
Proof.
  intros now p v B [T|T]; unfold kept_number.
  - destruct (N.eqb_spec (p_type p) 7); [lia|]. apply get_int; [exact B|exact n|]. cbn [set_number with_value p_value]. apply text_exact, T.
  - rewrite T. apply get_time; [exact B|exact T|]. cbn [set_number with_value p_value]. rewrite T. reflexivity.
Qed.
Print Assumptions C90_number.

(** A flag is read as it was set, whatever the data type; so is a number, as a flag, at a boolean. *)
Theorem C90_flag : forall p b v, get_flag (set_flag b p) = b /\ (p_type p = 4 -> get_flag (set_number v p) = (0 <? v)).
Proof.
  intros p b v. split; [destruct b; reflexivity|]. intros T. unfold set_number. rewrite T.
  cbn [with_value]. unfold get_flag. cbn [p_value]. change (value_text_of 4 v) with (flag_text (0 <? v)). destruct (0 <? v); reflexivity.
Qed.
Print Assumptions C90_flag.

(** A signed number of any integer type is read as it was set, whatever the data type; and as an unsigned
    number if it is not negative and the type is not date and time. *)
Theorem C90_signed : forall now p lo hi z, (lo <= z <= hi)%Z ->
  get_signed lo hi (set_signed z p) = z /\
  ((0 <= z < 2 ^ 64)%Z -> p_type p <> 7 -> get_number now (set_signed z p) = Ok (Z.to_N z)).
Proof.
  intros now p lo hi z R. split.
  - unfold get_signed. cbn [set_signed with_value p_value]. destruct (int_head z) as (c & r & E & SP & _).
    assert (L : ltrim (int_text z) = int_text z) by (rewrite E; cbn [ltrim]; rewrite SP; reflexivity).
    rewrite L, read_int_text. lia.
  - intros B T. apply get_int; [lia|exact T|]. cbn [set_signed with_value p_value]. rewrite Z2N.id by lia. reflexivity.
Qed.
Print Assumptions C90_signed.

(** The text that a number leaves: the date, the time of day, both, the flag or the hexadecimal number. *)
Theorem C90_texts : forall p v,
  (p_type p = 5 -> get_text (set_number v p) = date_z v) /\
  (p_type p = 6 -> get_text (set_number v p) = clock_z v) /\
  (p_type p = 7 -> get_text (set_number v p) = date_text true (day_of v) ++ [84] ++ clock_z v) /\
  (p_type p = 4 -> get_text (set_number v p) = if 0 <? v then lit "true" else lit "false") /\
  (p_type p = 8 -> v < 2 ^ 64 -> exists s, get_text (set_number v p) = lit "0x" ++ s /\ hex_of s v).
Proof.
  intros p v.
  assert (P : (0 <= seconds v)%Z) by (unfold seconds; apply Z.div_pos; lia).
  assert (E : sec_of v = seconds v) by (unfold sec_of, seconds; rewrite N2Z.inj_div; reflexivity).
  assert (DT : put_date (gmtime (sec_of v)) = date_text true (day_of v)) by (rewrite E; apply printed_date, P).
  assert (CT : to_iso_time true v = clock_z v).
  { unfold to_iso_time, clock_z. rewrite E, printed_clock by exact P. f_equal. unfold put_ms.
    assert (M : Z.of_N ((v / 1000000) mod 1000) = millis v) by (unfold millis; rewrite N2Z.inj_mod, N2Z.inj_div; reflexivity).
    rewrite <- M. rewrite Bool.andb_true_r.
    destruct (N.ltb_spec 0 ((v / 1000000) mod 1000)), (Z.ltb_spec 0 (Z.of_N ((v / 1000000) mod 1000))); try lia; [|reflexivity].
    rewrite put_dec_decimal. reflexivity. }
  unfold get_text. cbn [set_number with_value p_value].
  split; [intros ->; change (to_iso_date v = date_z v); unfold to_iso_date, date_z; rewrite DT; reflexivity|].
  split; [intros ->; exact CT|].
  split; [intros ->; change (value_text_of 7 v) with (to_iso_date_time true v); unfold to_iso_date_time; rewrite DT, <- CT; reflexivity|].
  split; [intros ->; reflexivity|]. intros -> B. exact (hex_written v B).
Qed.
Print Assumptions C90_texts.

(** Setting a value changes nothing else of the property, and declaring the data type nothing but the type. *)
Theorem C90_only : forall p v b z t,
  (forall q, In q [set_number v p; set_flag b p; set_signed z p] ->
    exists x, q = mkProp (p_std p) (p_name p) (p_desc p) (p_unit p) (p_ref p) (p_type p) (p_ro p) x) /\
  with_type t p = mkProp (p_std p) (p_name p) (p_desc p) (p_unit p) (p_ref p) t (p_ro p) (p_value p).
Proof.
  intros p v b z t. split; [|reflexivity]. intros q [<-|[<-|[<-|[]]]]; eexists; reflexivity.
Qed.
Print Assumptions C90_only.

(** ** Through the file *)

(** Whatever number or flag is set, the property can be stored. *)
Theorem C90_storable : forall p v b z, prop_ok p ->
  prop_ok (set_number v p) /\ prop_ok (set_flag b p) /\ prop_ok (set_signed z p).
Proof.
  intros p v b z O. split; [apply with_ok; [exact O|apply value_dark]|]. split; apply with_ok; auto using flag_dark, int_dark.
Qed.
Print Assumptions C90_storable.

(** A comment with such a property, at any depth, is stored and read: GetProperty finds the property, and
    its value is the number (to the millisecond for date and time), the text, the flag, the signed number
    that was set. *)
Theorem C90_file : forall order block c s name q, any_order order -> name_ok (block ++ lit "comment") -> comment_ok c ->
  text_of order (to_md block c) s -> get_prop (c_common c) name = Some q ->
  exists c' q', from_text (from_md order) describe_md s comment0 = Some c' /\ get_prop (c_common c') name = Some q' /\
    (forall now p v, q = set_number v p -> v < 2 ^ 64 -> exact_type (p_type p) \/ p_type p = 7 ->
      get_number now q' = Ok (kept_number (p_type p) v)) /\
    (forall p v, q = set_number v p -> get_text q' = get_text q /\ (p_type p = 4 -> get_flag q' = (0 <? v))) /\
    (forall p b, q = set_flag b p -> get_flag q' = b) /\
    (forall p lo hi z, q = set_signed z p -> (lo <= z <= hi)%Z -> get_signed lo hi q' = z).
Proof.
  intros order block c s name q OR NB CO TX G. destruct (C83_md order block c s OR NB CO TX) as (c' & R & _ & K).
  destruct (C83_property _ _ name K) as [(X & _)|(q0 & q' & X & Y & KP)]; [congruence|].
  assert (q0 = q) as -> by congruence. exists c', q'. split; [exact R|]. split; [exact Y|]. clear - KP.
  split; [|split; [|split]].
  - intros now p v -> B T. destruct (with_kept _ _ _ (value_dark _ _) KP) as (V & TY). destruct T as [[T|T]|T]; unfold kept_number, kept_type in *.
    + destruct (N.eqb_spec (p_type p) 7); [lia|]. destruct (N.eqb_spec (p_type p) 8); [lia|].
      apply get_int; [exact B|lia|]. rewrite V. apply text_exact, T.
    + rewrite T in *. apply get_hex; [exact B|exact TY|exact V].
    + rewrite T in *. apply get_time; [exact B|exact TY|exact V].
  - intros p v ->. destruct (with_kept _ _ _ (value_dark _ _) KP) as (V & TY). split; [exact V|]. intros T.
    unfold get_flag. rewrite V, T. change (value_text_of 4 v) with (flag_text (0 <? v)). destruct (0 <? v); reflexivity.
  - intros p b ->. destruct (with_kept _ _ _ (flag_dark _) KP) as (V & _). unfold get_flag. rewrite V. destruct b; reflexivity.
  - intros p lo hi z -> RZ. destruct (with_kept _ _ _ (int_dark _) KP) as (V & _).
    pose proof (C90_signed 0 p lo hi z RZ) as (H & _). unfold get_signed in *. rewrite V. exact H.
Qed.
Print Assumptions C90_file.

(** ** The dates of revisions *)

Lemma date_dark_text : forall ns, Forall dark (to_iso_date_time false ns).
Proof.
  intros ns. unfold to_iso_date_time. repeat (apply Forall_app; split); try apply date_dark; try apply clock_dark; try apply ms_dark;
    try apply z_dark; repeat constructor; unfold dark; lia.
Qed.
(** The date of a revision set in nanoseconds is read as the second it is in, before and after the unit
    specification was stored and read, and keeps a revision storable; nothing else of the revision changes. *)
Theorem C89_date : forall r ns, ns < 2 ^ 64 ->
  date_ns (set_date_ns ns r) = Ok (ns / 1000000000 * 1000000000) /\
  rv_date (set_date_ns ns r) = date_text true (day_of ns) ++ [84] ++
    clock_text true (seconds ns mod 86400 / 3600) (seconds ns mod 3600 / 60) (seconds ns mod 60) ++ [90] /\
  (forall r', kept_rev (set_date_ns ns r) r' -> date_ns r' = Ok (ns / 1000000000 * 1000000000)) /\
  (rev_ok r -> rev_ok (set_date_ns ns r)) /\
  (exists d, set_date_ns ns r = mkRv (rv_member r) (rv_label r) (rv_state r) d (rv_cos r) (rv_mods r)).
Proof.
  intros r ns B.
  assert (X : from_iso 0 (to_iso_date_time false ns) = Ok (ns / 1000000000 * 1000000000)).
  { rewrite print_back by exact B. f_equal. pose proof (N.div_mod ns 1000000000 ltac:(lia)). lia. }
  split; [exact X|]. split.
  { assert (P : (0 <= seconds ns)%Z) by (unfold seconds; apply Z.div_pos; lia).
    assert (E : sec_of ns = seconds ns) by (unfold sec_of, seconds; rewrite N2Z.inj_div; reflexivity).
    cbn [set_date_ns rv_date]. unfold to_iso_date_time. rewrite E, printed_date, printed_clock by exact P.
    unfold put_ms. rewrite Bool.andb_false_r. reflexivity. }
  split.
  - intros r' (_ & _ & _ & D & _). unfold date_ns. rewrite D. cbn [set_date_ns rv_date]. rewrite dark_trim by apply date_dark_text. exact X.
  - split; [|eexists; reflexivity].
    intros (A1 & A2 & A3 & _ & A5). split; [exact A1|]. split; [exact A2|]. split; [exact A3|]. split; [|exact A5].
    apply dark_text, date_dark_text.
Qed.
Print Assumptions C89_date.

(** From the calls to the header that was read: the date of every revision that was added with DateNs. *)
Theorem C89_dates : forall print scan order h ops s k r ns, any_order order -> hdc_ok h -> Forall (scall_ok print) ops ->
  text_of order (to_hdu print (mkHdu h (fold_left do_scall ops spec0))) s ->
  nth_error (revs_of ops) k = Some (set_date_ns ns r) -> ns < 2 ^ 64 ->
  exists c' r', from_text (from_hdu scan order) describe_hdu s hducom0 = Some c' /\
    nth_error (sp_revs (hu_spec c')) k = Some r' /\ date_ns r' = Ok (ns / 1000000000 * 1000000000).
Proof.
  intros print scan order h ops s k r ns OR HO CO TX NT B.
  destruct (C89_calls print scan order h ops s OR HO CO TX) as (c' & E & K & _). exists c'.
  assert (G : forall l l' k x, Forall2 kept_rev l l' -> nth_error l k = Some x -> exists y, nth_error l' k = Some y /\ kept_rev x y).
  { clear. intros l l' k x F. revert k. induction F as [|a b l l' KA F IH]; intros [|k] E; try discriminate; cbn [nth_error] in *.
    - exists b. split; [reflexivity|]. congruence.
    - apply IH, E. }
  destruct (G _ _ _ _ K NT) as (r' & N' & KR). exists r'. split; [exact E|]. split; [exact N'|]. apply (C89_date r ns B), KR.
Qed.
Print Assumptions C89_dates.

(** ** A case *)

Definition blank (name : string) (type : N) : mprop := with_type type (simple_prop (lit name) []).
Definition typed : comment := mkC mstr0
  (add_prop (set_number 1583020798123456789 (blank "at" 7))
  (add_prop (set_number 255 (blank "mask" 8))
  (add_prop (set_number 18446744073709551615 (blank "max" 2))
  (add_prop (set_flag true (blank "on" 4))
  (add_prop (set_signed (-12) (blank "t" 2)) mlist0))))).
Definition read_typed {A : Type} (f : mprop -> A) (name : string) : option A :=
  match again typed with Some c => option_map f (get_prop (c_common c) (lit name)) | None => None end.
Lemma blank_ok : forall name t, forallb (fun c => (32 <=? c) && (c <? 128)) (lit name) = true -> tight (lit name) -> t <= 8 -> prop_ok (blank name t).
Proof.
  intros name t A T H. unfold prop_ok, blank, with_type, simple_prop. cbn [p_std p_name p_desc p_unit p_ref p_type p_value].
  split; [apply std0_ok|]. split; [apply line_lit, A|]. split; [exact T|]. repeat (split; [apply line_lit; reflexivity|]).
  split; [exact H|apply text_lit; reflexivity].
Qed.
Example C90_witness :
  comment_ok typed /\
  read_typed (get_number 5) "at" = Some (Ok 1583020798123000000) /\
  read_typed get_text "at" = Some (lit "2020-02-29T23:59:58.123Z") /\
  read_typed (get_number 5) "mask" = Some (Ok 255) /\ read_typed get_text "mask" = Some (lit "0xFF") /\
  read_typed (get_number 5) "max" = Some (Ok 18446744073709551615) /\
  read_typed get_flag "on" = Some true /\ read_typed (get_signed (- 2 ^ 31) (2 ^ 31 - 1)) "t" = Some (-12)%Z.
Proof.
  split.
  - split; [apply str_lit; reflexivity|]. split; [|auto]. unfold typed. cbn [c_common].
    apply add_prop_ok; [apply (C90_storable _ _ true 0%Z), blank_ok; (reflexivity || lia)|].
    apply add_prop_ok; [apply (C90_storable _ _ true 0%Z), blank_ok; (reflexivity || lia)|].
    apply add_prop_ok; [apply (C90_storable _ _ true 0%Z), blank_ok; (reflexivity || lia)|].
    apply add_prop_ok; [apply (C90_storable _ 0 _ 0%Z), blank_ok; (reflexivity || lia)|].
    apply add_prop_ok; [apply (C90_storable _ 0 true _), blank_ok; (reflexivity || lia)|].
    exact list0_ok.
  - vm_compute. repeat split.
Qed.

Definition dated : list scall := [CRev rev0; CRev (set_date_ns 1583020798123456789 (mkRv (lit "me") (lit "1.0") [] [] [] []))].
Example C89_date_witness :
  option_map (fun c => map date_ns (sp_revs (hu_spec c))) (hdu_again (mkHdu hdc0 (fold_left do_scall dated spec0))) =
    Some [Ok 0; Ok 1583020798000000000] /\
  option_map (fun c => map rv_date (sp_revs (hu_spec c))) (hdu_again (mkHdu hdc0 (fold_left do_scall dated spec0))) =
    Some [[]; lit "2020-02-29T23:59:58Z"].
Proof. split; vm_compute; reflexivity. Qed.

(** ** What is not kept *)

(** A date is not read back: the number is the year. *)
Theorem C90_date_refuted : ~ forall now p v, v < 2 ^ 64 -> p_type p = 5 ->
  get_number now (set_number v p) = Ok (v / 86400000000000 * 86400000000000).
Proof. intros H. specialize (H 0 (blank "d" 5) 1583020798123456789 ltac:(reflexivity) eq_refl). revert H. vm_compute. discriminate. Qed.
Print Assumptions C90_date_refuted.

(** A time of day is not read back: the number is the hour. *)
Theorem C90_time_refuted : ~ forall now p v, v < 86400000000000 -> p_type p = 6 ->
  get_number now (set_number v p) = Ok (v / 1000000 * 1000000).
Proof. intros H. specialize (H 0 (blank "t" 6) 86398123456789 ltac:(reflexivity) eq_refl). revert H. vm_compute. discriminate. Qed.
Print Assumptions C90_time_refuted.

(** A hexadecimal number is read as 0 until the property was stored and read, whatever the number. *)
Theorem C90_hex_refuted : forall now p v, p_type p = 8 -> get_number now (set_number v p) = Ok 0.
Proof.
  intros now p v T. unfold get_number, set_number. cbn [with_value p_type p_value]. rewrite T. change (value_text_of 8 v) with (hex_text v).
  change (8 =? 2) with false. change (8 =? 7) with false. cbv iota. f_equal.
Qed.
Print Assumptions C90_hex_refuted.

(** A boolean is read as the number 0, whatever the value. *)
Theorem C90_boolean_refuted : forall now p v, p_type p = 4 -> get_number now (set_number v p) = Ok 0.
Proof.
  intros now p v T. unfold get_number, set_number. cbn [with_value p_type p_value]. rewrite T. change (value_text_of 4 v) with (flag_text (0 <? v)).
  destruct (0 <? v); reflexivity.
Qed.
Print Assumptions C90_boolean_refuted.

(** A number as a flag depends on its first digit: 2 is false and 10 is true. *)
Theorem C90_first_digit_refuted : ~ forall p v, p_type p = 2 -> get_flag (set_number v p) = (0 <? v).
Proof. intros H. specialize (H (blank "n" 2) 2 eq_refl). revert H. vm_compute. discriminate. Qed.
Print Assumptions C90_first_digit_refuted.
