(** Proofs about typed property values. *)
From Coq Require Import String Lia.
From Verif Require Import Base BlockModel BlockSpec BlockProofs TimeModel TimeSpec TimeProofs TimeProofs2 TextSpec XmlModel XmlSpec
  XmlProofs4 CommentModel CommentSpec CommentProofs CommentProofs2 CommentProofs6 NoteModel NoteProofs PvModel PvSpec.
Local Open Scope N_scope.
Local Open Scope list_scope.

(** ** Texts without white space and control characters *)

Definition dark (c : N) : Prop := 32 < c < 128.
Lemma dark_text : forall s, Forall dark s -> text_ok s.
Proof. intros s F. apply CommentProofs6.line_text, ascii_line. eapply Forall_impl; [|exact F]. unfold dark. intros; lia. Qed.
Lemma dark_space : forall c, dark c -> is_space c = false.
Proof.
  unfold dark, is_space. intros c D. destruct (N.eqb_spec c 32); [lia|]. destruct (N.leb_spec 9 c), (N.leb_spec c 13); auto; lia.
Qed.
Lemma dark_last : forall s c, Forall dark (c :: s) -> dark (last (c :: s) 0).
Proof.
  induction s as [|d s IH]; intros c F; inversion F; subst; [assumption|]. change (last (c :: d :: s) 0) with (last (d :: s) 0). auto.
Qed.
Lemma dark_trim : forall s, Forall dark s -> trim s = s.
Proof.
  intros s F. apply trim_id. split.
  - intros I. rewrite Forall_forall in F. specialize (F 0 I). unfold dark in F. lia.
  - destruct s as [|c s]; [congruence|]. intros _. split; apply dark_space; [inversion F; assumption|apply dark_last, F].
Qed.

Lemma put_dec_dark : forall k v, Forall dark (put_dec k v).
Proof.
  induction k as [|k IH]; intros v; cbn [put_dec]; [constructor|]. apply Forall_app. split; [apply IH|]. constructor; [|constructor].
  unfold dark. pose proof (Z.mod_pos_bound v 10 ltac:(lia)). lia.
Qed.
Lemma date_dark : forall t, Forall dark (put_date t).
Proof. intros t. unfold put_date. repeat (apply Forall_app; split); try apply put_dec_dark; repeat constructor; unfold dark; lia. Qed.
Lemma clock_dark : forall t, Forall dark (put_clock t).
Proof. intros t. unfold put_clock. repeat (apply Forall_app; split); try apply put_dec_dark; repeat constructor; unfold dark; lia. Qed.
Lemma ms_dark : forall b v, Forall dark (put_ms b v).
Proof.
  intros b v. unfold put_ms. destruct ((0 <? v) && b); [|constructor]. constructor; [unfold dark; lia|apply put_dec_dark].
Qed.
Lemma z_dark : Forall dark [90].
Proof. repeat constructor; unfold dark; lia. Qed.
Lemma int_dark : forall z, Forall dark (int_text z).
Proof.
  intros z. unfold int_text. apply Forall_app. split; [destruct (z <? 0)%Z; repeat constructor; unfold dark; lia|].
  eapply Forall_impl; [|apply uint_bytes_range]. unfold dark. cbv beta. intros; lia.
Qed.
Lemma hex_dark : forall n, Forall dark (hex_text n).
Proof.
  intros n. unfold hex_text. apply Forall_app. split; [repeat constructor; unfold dark; lia|].
  pose proof (hex_digits_ch 16 n [] (Forall_nil _)) as F. eapply Forall_impl; [|exact F]. unfold dark. intros c [H|H]; lia.
Qed.
Lemma flag_dark : forall b, Forall dark (flag_text b).
Proof. intros [|]; repeat constructor; unfold dark; lia. Qed.
Lemma value_dark : forall type v, Forall dark (value_text_of type v).
Proof.
  intros type v. unfold value_text_of.
  repeat match goal with |- context [if ?b then _ else _] => destruct b end; try apply hex_dark; try apply int_dark;
    try apply flag_dark; unfold to_iso_date, to_iso_time, to_iso_date_time;
    repeat (apply Forall_app; split); try apply date_dark; try apply clock_dark; try apply ms_dark; try apply z_dark;
    repeat constructor; unfold dark; lia.
Qed.

(** ** The property with the value *)

Lemma with_ok : forall v p, prop_ok p -> Forall dark v -> prop_ok (with_value v p).
Proof.
  intros v p (S & N1 & T & D & U & R & TY & _) F. unfold prop_ok, with_value. cbn [p_std p_name p_desc p_unit p_ref p_type p_ro p_value].
  split; [exact S|]. repeat (split; [assumption|]). apply dark_text, F.
Qed.
Lemma with_kept : forall v p p', Forall dark v -> kept_prop (with_value v p) p' -> p_value p' = v /\ p_type p' = kept_type (p_type p).
Proof.
  intros v p p' F (_ & _ & _ & _ & _ & T & _ & V). cbn [with_value p_type p_value] in T, V. rewrite dark_trim in V by exact F. auto.
Qed.

Lemma plain_int : forall v, v < 2 ^ 64 -> plain_number (int_text (Z.of_N v)) = v.
Proof.
  intros v B. unfold plain_number. rewrite stoull_int by exact B. destruct (int_head (Z.of_N v)) as (c & r & E & _). rewrite E. reflexivity.
Qed.
Lemma int_not_hex : forall z, after_0x (int_text z) = None.
Proof.
  intros z. assert (D : Forall (fun c => c < 58) (int_text z)).
  { unfold int_text. apply Forall_app. split; [destruct (z <? 0)%Z; repeat constructor; lia|].
    eapply Forall_impl; [|apply uint_bytes_range]. cbv beta. intros; lia. }
  destruct (after_0x (int_text z)) as [h|] eqn:AX; [|reflexivity]. exfalso. unfold after_0x in AX.
  destruct (int_text z) as [|c r]; [discriminate|]. change (lit "0x") with [48; 120] in AX. cbn [strip] in AX.
  destruct (48 =? c); [|discriminate]. destruct r as [|x r]; [discriminate|]. destruct (N.eqb_spec 120 x) as [<-|]; [|discriminate].
  inversion D as [|? ? _ D2]; subst. inversion D2; subst. lia.
Qed.

(** Reading a text as a property of a type. *)
Lemma get_int : forall now p v, v < 2 ^ 64 -> p_type p <> 7 -> p_value p = int_text (Z.of_N v) -> get_number now p = Ok v.
Proof.
  intros now p v B T E. unfold get_number. rewrite E, int_not_hex, plain_int by exact B.
  destruct (p_type p =? 2); [reflexivity|]. destruct (N.eqb_spec (p_type p) 7); [contradiction|reflexivity].
Qed.
Lemma get_hex : forall now p v, v < 2 ^ 64 -> p_type p = 2 -> p_value p = hex_text v -> get_number now p = Ok v.
Proof.
  intros now p v B T E. unfold get_number. rewrite E, T, after_hex, stoull16_hex by exact B. reflexivity.
Qed.
Lemma get_time : forall now p v, v < 2 ^ 64 -> p_type p = 7 -> p_value p = to_iso_date_time true v ->
  get_number now p = Ok (v / 1000000 * 1000000).
Proof.
  intros now p v B T E. unfold get_number. rewrite E, T. change (7 =? 2) with false. change (7 =? 7) with true. cbv iota.
  rewrite print_back by exact B. f_equal. pose proof (N.div_mod v 1000000 ltac:(lia)). lia.
Qed.
Lemma text_exact : forall t v, t <= 3 -> value_text_of t v = int_text (Z.of_N v).
Proof.
  intros t v H. unfold value_text_of. destruct (N.eqb_spec t 5), (N.eqb_spec t 6), (N.eqb_spec t 7), (N.eqb_spec t 4), (N.eqb_spec t 8); try lia.
  reflexivity.
Qed.

(** ** Hexadecimal texts *)

Lemma hex_char_digit : forall d, d < 16 -> hex_char (hex_digit d) d.
Proof. intros d D. unfold hex_char, hex_digit. destruct (N.ltb_spec d 10); lia. Qed.
Lemma hex_digits_of : forall f n acc, n < 16 ^ N.of_nat (S f) -> exists s, hex_digits (S f) n acc = s ++ acc /\ hex_of s n.
Proof.
  induction f as [|f IH]; intros n acc B.
  - change (16 ^ N.of_nat 1) with 16 in B. exists [hex_digit n]. cbn [hex_digits]. rewrite N.mod_small by exact B.
    rewrite N.div_small by exact B. split; [reflexivity|]. constructor. apply hex_char_digit, B.
  - remember (S f) as g. cbn [hex_digits]. pose proof (N.div_mod n 16 ltac:(lia)) as DM. pose proof (N.mod_lt n 16 ltac:(lia)) as ML.
    destruct (N.eqb_spec (n / 16) 0) as [E|E].
    + exists [hex_digit (n mod 16)]. split; [reflexivity|]. assert (n mod 16 = n) as -> by lia. constructor. apply hex_char_digit. lia.
    + destruct (IH (n / 16) (hex_digit (n mod 16) :: acc)) as (s & H & O).
      { apply N.div_lt_upper_bound; [lia|]. rewrite <- N.pow_succ_r'. rewrite <- Nat2N.inj_succ. exact B. }
      exists (s ++ [hex_digit (n mod 16)]). split; [rewrite H, <- app_assoc; reflexivity|].
      rewrite DM at 2. apply hex_more; [exact O|lia|]. apply hex_char_digit. exact ML.
Qed.
Lemma hex_written : forall v, v < 2 ^ 64 -> exists s, hex_text v = [48; 120] ++ s /\ hex_of s v.
Proof.
  intros v B. destruct (hex_digits_of 15 v [] ltac:(exact B)) as (s & E & O). exists s. split; [|exact O].
  unfold hex_text. rewrite E, app_nil_r. reflexivity.
Qed.
