(** Property theorems about the MD5 file checksum (C50). *)
From Verif Require Import Base Md5Model Md5Spec Md5Proofs.
Local Open Scope N_scope.

(** C50. The checksum of a file, read in any pieces, is the RFC 1321 digest of its bytes: no piece
    writes outside the context, and the digest does not depend on how the file was cut. *)
Theorem C50_checksum : forall chunks file,
  concat chunks = file -> md5_checksum chunks = Ok (rfc_md5 file).
Proof. intros chunks file <-. apply md5_rfc. Qed.
Print Assumptions C50_checksum.

Lemma hex_same : forall v, v < 16 -> hex_digit v = hex_char v.
Proof.
  intros v H. assert (X: In v (map N.of_nat (seq 0 16))).
  { apply in_map_iff. exists (N.to_nat v). split; [apply Nnat.N2Nat.id | apply in_seq; lia]. }
  cbn in X. repeat destruct X as [<-|X]; try reflexivity. contradiction.
Qed.

Lemma hex_text_same : forall l, bytes_ok l ->
  flat_map (fun b => [hex_digit (b / 16); hex_digit (b mod 16)]) l = hex_text l.
Proof.
  unfold hex_text. induction 1 as [|b l Hb Hl IH]; cbn [flat_map]; [reflexivity|].
  rewrite IH, !hex_same; [reflexivity | apply N.mod_lt; discriminate |].
  apply N.div_lt_upper_bound; [discriminate|]. unfold byte_ok in Hb. lia.
Qed.

Lemma digest_ok : forall m, length (rfc_md5 m) = 16%nat /\ bytes_ok (rfc_md5 m).
Proof.
  intros m. unfold rfc_md5. destruct (rfc_blocks _ _ _) as [[[a b] c] d].
  split; [rewrite !app_length, !le_bytes_length; reflexivity|].
  repeat (apply Forall_app; split); apply le_bytes_ok.
Qed.

(** C50. The text form: the 32 hexadecimal digits of the digest. *)
Theorem C50_string : forall chunks file,
  concat chunks = file ->
  md5_string chunks = Ok (hex_text (rfc_md5 file)) /\
  length (hex_text (rfc_md5 file)) = 32%nat /\
  Forall (fun c => In c [48;49;50;51;52;53;54;55;56;57;65;66;67;68;69;70]) (hex_text (rfc_md5 file)).
Proof.
  intros chunks file H. unfold md5_string. rewrite (C50_checksum _ _ H). cbn [bind].
  destruct (digest_ok file) as (D1 & D2). rewrite (hex_text_same _ D2). split; [reflexivity|].
  revert D1 D2. generalize (rfc_md5 file). intros l D1 D2. unfold hex_text.
  assert (X: forall l, length (flat_map (fun b => [hex_char (b / 16); hex_char (b mod 16)]) l)
                       = (2 * length l)%nat).
  { induction l0 as [|b r IH]; cbn [flat_map length app]; [reflexivity | rewrite IH; lia]. }
  split; [rewrite X, D1; reflexivity|]. clear D1 X.
  induction D2 as [|b r Hb Hr IH]; cbn [flat_map app]; [constructor|].
  assert (Y: forall v, v < 16 ->
             In (hex_char v) [48;49;50;51;52;53;54;55;56;57;65;66;67;68;69;70]).
  { intros v Hv. unfold hex_char. apply nth_In. cbn [length]. lia. }
  constructor; [|constructor; [|exact IH]].
  - apply Y. apply N.div_lt_upper_bound; [discriminate|]. unfold byte_ok in Hb. lia.
  - apply Y. apply N.mod_lt. discriminate.
Qed.
Print Assumptions C50_string.

(** The context after any updates, closed at any time: a digest taken after some of the pieces is the
    digest of the bytes so far, and going on from the same context gives the digest of all. *)
Theorem C50_any_prefix : forall first rest,
  exists ctx, md5_updates md5_init first = Ok ctx /\
    md5_final ctx = Ok (rfc_md5 (concat first)) /\
    bind (md5_updates ctx rest) md5_final = Ok (rfc_md5 (concat (first ++ rest))).
Proof.
  intros first rest. destruct (updates_ok first md5_init [] init_holds) as (c & E & H).
  exists c. split; [exact E|]. split; [apply final_ok; exact H|].
  destruct (updates_ok rest c _ H) as (c2 & E2 & H2). rewrite E2. cbn [bind].
  rewrite (final_ok _ _ H2), concat_app. reflexivity.
Qed.
Print Assumptions C50_any_prefix.

(** The padding of the specification, in the words of RFC 1321: the padded message is the message, a
    1 bit, the fewest zeros that leave 8 bytes of the last block, and the length. *)
Theorem C50_padding : forall m,
  exists z len8, rfc_pad m = m ++ [128] ++ repeat 0 z ++ len8 /\
    length len8 = 8%nat /\ le_num len8 = (8 * N.of_nat (length m)) mod 2 ^ 64 /\
    (length (rfc_pad m) mod 64 = 0)%nat /\
    (forall z', (length m + 1 + z' + 8) mod 64 = 0 -> z <= z')%nat.
Proof.
  intros m. exists (pad_zeros (length m)). eexists. split; [reflexivity|].
  split; [apply le_bytes_length|].
  split. { rewrite le_num_bytes. apply N.mod_small. change (256 ^ N.of_nat 8) with (2 ^ 64).
           apply N.mod_lt. discriminate. }
  destruct (divmod64 (length m)) as (E1 & E2).
  pose proof (pad_cases _ E2) as P. rewrite <- pad_mod in P.
  assert (L: length (rfc_pad m) = (length m + 1 + pad_zeros (length m) + 8)%nat).
  { unfold rfc_pad. rewrite !app_length, repeat_length, le_bytes_length. cbn [length]. lia. }
  rewrite L. clear L.
  set (q := (length m / 64)%nat) in *. set (u := (length m mod 64)%nat) in *.
  set (z := pad_zeros (length m)) in *. clearbody q u z.
  split.
  - destruct (Nat.ltb_spec (63 - u) 8).
    + apply (div64_unique _ (q + 2) 0); lia.
    + apply (div64_unique _ (q + 1) 0); lia.
  - intros z' H. destruct (divmod64 (length m + 1 + z' + 8)) as (F1 & _). rewrite H in F1.
    destruct (Nat.ltb_spec (63 - u) 8); lia.
Qed.
Print Assumptions C50_padding.

(** Non-vacuity: the test suite of RFC 1321, cut in pieces; and a message of several blocks. *)
Example C50_witness :
  md5_string [] = Ok (hex_text [0xd4;0x1d;0x8c;0xd9;0x8f;0x00;0xb2;0x04;
                                0xe9;0x80;0x09;0x98;0xec;0xf8;0x42;0x7e]) /\
  md5_string [[97]; []; [98; 99]]
  = Ok (hex_text [0x90;0x01;0x50;0x98;0x3c;0xd2;0x4f;0xb0;0xd6;0x96;0x3f;0x7d;0x28;0xe1;0x7f;0x72]) /\
  md5_checksum [repeat 97 63; repeat 98 130] = md5_checksum [repeat 97 63 ++ repeat 98 130] /\
  rfc_md5 [97; 98; 99]
  = [0x90;0x01;0x50;0x98;0x3c;0xd2;0x4f;0xb0;0xd6;0x96;0x3f;0x7d;0x28;0xe1;0x7f;0x72].
Proof. vm_compute. repeat split. Qed.
