(** Proofs about the identification block and whole files. *)
From Verif Require Import Base BlockModel BlockSpec BlockProofs BlockProofs4 MetaModel MetaSpec MetaProofs MetaProofs3
  IdentModel IdentSpec.
Local Open Scope N_scope.

Lemma id_bytes_length : forall d, length (id_bytes d) = 64%nat.
Proof.
  intros d. unfold id_bytes. rewrite !app_length, !str_bytes_length, !num_bytes_length, repeat_length. reflexivity.
Qed.

Lemma read_str_text : forall s f p, ~ In 0 s -> (length s <= 8)%nat -> holds f p (str_bytes 8 s) ->
  read_str 8 f p = (trim s, (p + 8)%nat).
Proof.
  intros s f p NZ L H. rewrite (read_str_any 8 s) by auto. rewrite firstn_all2 by lia. rewrite cut_id; auto.
Qed.

Lemma le_repeat0 : forall n, le_bytes n 0 = repeat 0 n.
Proof. induction n; cbn [le_bytes repeat]; [reflexivity|]. rewrite N.mod_0_l, N.div_0_l by discriminate. rewrite IHn. reflexivity. Qed.

Lemma read_id_holds : forall d f, id_texts d -> id_numbers d -> holds f 0 (id_bytes d) ->
  read_id f = Ok (id_trimmed d).
Proof.
  intros d f T NU H. inversion T as [|? ? [A1 A2] T1]; subst. inversion T1 as [|? ? [B1 B2] T2]; subst.
  inversion T2 as [|? ? [C1 C2] T3]; subst. clear T T1 T2 T3. destruct NU as [O NU].
  inversion NU as [|? ? D1 N1]; subst. inversion N1 as [|? ? D2 N2]; subst. inversion N2 as [|? ? D3 N3]; subst.
  inversion N3 as [|? ? D4 N4]; subst. inversion N4 as [|? ? D5 N5]; subst. clear NU N1 N2 N3 N4 N5.
  unfold id_bytes in H.
  repeat (rewrite holds_app in H; destruct H as [? H]).
  rewrite ?str_bytes_length, ?num_bytes_length, ?repeat_length in *.
  rewrite O in *. change (big_endian 0) with false in *. unfold read_id.
  rewrite (read_str_text (i_file d)) by auto. rewrite (read_str_text (i_format d)) by auto.
  rewrite (read_str_text (i_program d)) by auto.
  rewrite (read_num_any false f _ 2 0) by (auto; reflexivity). cbn [bind].
  change (big_endian 0) with false.
  rewrite (read_num_any false f _ 2 (i_float d)) by auto. cbn [bind].
  rewrite (read_num_any false f _ 2 (i_version d)) by auto. cbn [bind].
  rewrite (read_num_any false f _ 2 (i_code d)) by auto. cbn [bind].
  rewrite (read_num_any false f _ 28 0) by (first [reflexivity | unfold num_bytes; rewrite le_repeat0; auto]). cbn [bind].
  rewrite (read_num_any false f _ 2 (i_standard d)) by auto. cbn [bind].
  rewrite (read_num_any false f _ 2 (i_custom d)) by auto. cbn [bind].
  unfold id_trimmed. rewrite O. reflexivity.
Qed.

Lemma put_holds_any : forall f bs, holds (put f 0 bs) 0 bs.
Proof.
  intros f bs. unfold put. cbn [firstn]. cbn [Nat.sub repeat app Nat.add].
  pose proof (holds_end [] bs (skipn (length bs) f)) as H. exact H.
Qed.

Lemma write_id_holds : forall d f, holds (write_id false d f) 0 (id_bytes d).
Proof. intros. apply put_holds_any. Qed.

Lemma mark_holds : forall fin st cu d f, holds f 0 (id_bytes d) ->
  holds (mark_file true fin st cu d f) 0 (id_bytes (mark_id fin st cu d)) /\
  same_but_mark f (mark_file true fin st cu d f).
Proof.
  intros fin st cu d f H. set (m := mark_id fin st cu d).
  assert (L : (64 <= length f)%nat) by (destruct H as [H _]; rewrite id_bytes_length in H; lia).
  assert (LT : length (str_bytes 8 (i_file m)) = 8%nat) by apply str_bytes_length.
  set (z := num_bytes (big_endian (i_order d)) 2 (i_standard m) ++ num_bytes (big_endian (i_order d)) 2 (i_custom m)).
  assert (LZ : length z = 4%nat) by (unfold z; rewrite app_length, !num_bytes_length; reflexivity).
  assert (E : mark_file true fin st cu d f = put (put f 0 (str_bytes 8 (i_file m))) 60 z) by reflexivity.
  rewrite E. clear E.
  assert (S1 : same_outside f (put f 0 (str_bytes 8 (i_file m))) 0 8).
  { pose proof (put_same_outside f 0 (str_bytes 8 (i_file m)) ltac:(lia)) as Q. rewrite LT in Q. exact Q. }
  set (f1 := put f 0 (str_bytes 8 (i_file m))) in *.
  assert (L1 : length f1 = length f) by apply S1.
  assert (S2 : same_outside f1 (put f1 60 z) 60 4).
  { pose proof (put_same_outside f1 60 z ltac:(lia)) as Q. rewrite LZ in Q. exact Q. }
  assert (H1 : holds f1 0 (str_bytes 8 (i_file m))) by (apply holds_put; lia).
  assert (H2 : holds (put f1 60 z) 60 z) by (apply holds_put; lia).
  split.
  - unfold id_bytes in H. set (n := num_bytes (big_endian (i_order d)) 2) in *.
    assert (E : id_bytes m = str_bytes 8 (i_file m) ++
      (str_bytes 8 (i_format d) ++ str_bytes 8 (i_program d) ++ n (i_order d) ++ n (i_float d) ++ n (i_version d)
       ++ n (i_code d) ++ repeat 0 28) ++ z).
    { unfold id_bytes, z, m, mark_id, n. cbn [i_file i_format i_program i_order i_float i_version i_code i_standard i_custom].
      rewrite <- !app_assoc. reflexivity. }
    assert (H' : holds f 0 (str_bytes 8 (i_file d) ++
      (str_bytes 8 (i_format d) ++ str_bytes 8 (i_program d) ++ n (i_order d) ++ n (i_float d) ++ n (i_version d)
       ++ n (i_code d) ++ repeat 0 28) ++ (n (i_standard d) ++ n (i_custom d)))).
    { rewrite <- !app_assoc. exact H. }
    clear H. rewrite E. clear E.
    set (mid := str_bytes 8 (i_format d) ++ _) in *.
    assert (LM : length mid = 52%nat).
    { unfold mid, n. rewrite !app_length, !str_bytes_length, !num_bytes_length, repeat_length. reflexivity. }
    rewrite holds_app in H'. destruct H' as [_ H']. rewrite holds_app in H'. destruct H' as [H' _].
    rewrite str_bytes_length in H'. cbn [Nat.add] in H'.
    rewrite holds_app. split.
    + eapply holds_frame; [exact S2|exact H1|left; lia].
    + rewrite LT. cbn [Nat.add]. rewrite holds_app. rewrite LM. cbn [Nat.add]. split; [|exact H2].
      eapply holds_frame; [exact S2| |left; lia].
      eapply holds_frame; [exact S1|exact H'|right; lia].
  - destruct S1 as [_ S1], S2 as [L2 S2]. split; [lia|]. intros i M. unfold mark_position in M.
    rewrite S2 by lia. apply S1. lia.
Qed.

Lemma same_but_mark_ext : forall f g h, same_but_mark f g -> (64 <= length f)%nat -> same_but_mark (f ++ h) (g ++ h).
Proof.
  intros f g h [L H] B. split; [rewrite !app_length; lia|]. intros i M.
  destruct (Nat.lt_ge_cases i (length f)) as [I|I].
  - rewrite !nth_error_app1 by lia. auto.
  - rewrite !nth_error_app2 by lia. rewrite L. reflexivity.
Qed.

Lemma write_id_new : forall d, write_id false d [] = id_bytes d.
Proof.
  intros d. unfold write_id, put. cbn [firstn repeat length Nat.sub app]. rewrite skipn_nil. apply app_nil_r.
Qed.

Lemma same_in_of : forall f g lo hi, (forall i, (lo <= i < hi)%nat -> nth_error g i = nth_error f i) -> same_in f g lo hi.
Proof. intros f g lo hi H. unfold same_in. intros i I. first [apply H | symmetry; apply H]; lia. Qed.

(** A new file: the ID block, and the description from 64 on. *)
Lemma file_written : forall d h, hd_ok h -> exists enough, forall fuel, (enough <= fuel)%nat ->
  exists f' b, write_file d h [] = Ok (f', b) /\ holds f' 0 (id_bytes d) /\ (64 <= length f')%nat /\
    (N.of_nat (length f') < 2 ^ 63 -> forall g,
       (forall i, (64 <= i < length f')%nat -> nth_error g i = nth_error f' i) ->
       read_hd fuel g 64 = Ok (hd_form h)).
Proof.
  intros d h OK. destruct (stored_hd h OK) as [n H]. exists n. intros fuel L.
  assert (LI : length (id_bytes d) = 64%nat) by apply id_bytes_length.
  destruct (H fuel L (id_bytes d) ltac:(lia)) as (f' & b & E & G & _ & P & R). clear H.
  exists f', b. unfold write_file. rewrite write_id_new. split; [exact E|]. destruct G as [x ->]. split.
  - pose proof (holds_end [] (id_bytes d) x) as HE. exact HE.
  - split; [rewrite app_length; lia|]. intros B g S.
    assert (P' : b_pos b = 64%nat) by (rewrite P, LI; reflexivity).
    rewrite <- P'. apply R; auto. apply same_in_of. rewrite LI. exact S.
Qed.
