(** Writes of list blocks, one by one. *)
From Verif Require Import Base BlockModel BlockSpec BlockProofs BlockProofs2 BlockProofs3 BlockProofs4
  MetaModel MetaSpec MetaProofs MetaProofs3 DataModel DataSpec DataProofs ListProofs StoreProofs StoreProofs2
  IdentModel IdentSpec IdentProofs QueueModel
  MeasModel MeasSpec MeasProofs MeasProofs2 MeasProofs3 MeasProofs4 MeasProofs5 CutModel CutSpec CutProofs CutProofs2
  CompModel CompSpec CompProofs CompProofs2 CompProofs3 CompCutModel.
Local Open Scope N_scope.

(** Writes behind the first [n] bytes. *)
Definition beyond (n : nat) (ws : list (nat * list N)) : Prop := Forall (fun w => (n <= fst w)%nat) ws.

Lemma put_beyond : forall f x p bs, (length f <= p)%nat -> exists y, put (f ++ x) p bs = f ++ y.
Proof.
  intros f x p bs L. unfold put. rewrite firstn_app, firstn_all2 by exact L. rewrite <- app_assoc. eexists. reflexivity.
Qed.

Lemma puts_beyond : forall ws f x, beyond (length f) ws -> exists y, puts (f ++ x) ws = f ++ y.
Proof.
  induction ws as [|[p bs] r IH]; intros f x B; [exists x; reflexivity|]. inversion B as [|? ? B1 B2]; subst. cbn [fst] in B1.
  rewrite puts_cons. destruct (put_beyond f x p bs B1) as [y ->]. apply IH. exact B2.
Qed.

Lemma beyond_firstn : forall n ws j, beyond n ws -> beyond n (firstn j ws).
Proof. intros n ws. induction ws as [|w ws IH]; intros [|j] B; cbn [firstn]; try constructor; inversion B; subst; auto. apply IH. auto. Qed.

Lemma beyond_le : forall n m ws, (n <= m)%nat -> beyond m ws -> beyond n ws.
Proof. intros n m ws L B. eapply Forall_impl; [|exact B]. cbv beta. intros w H. lia. Qed.

Lemma beyond_app : forall n a b, beyond n a -> beyond n b -> beyond n (a ++ b).
Proof. intros. apply Forall_app. auto. Qed.

Lemma beyond_appended : forall bs n, beyond n (appended n bs).
Proof.
  induction bs as [|b bs IH]; intros n; cbn [appended]; constructor; [cbn; lia|]. eapply beyond_le; [|apply IH]. lia.
Qed.

Lemma beyond_block : forall n x, beyond n (block_steps n x).
Proof. intros. apply beyond_appended. Qed.

Lemma beyond_dblks : forall ks p i n m, (m <= p)%nat -> (m <= n)%nat -> beyond m (dblks_steps p i n ks).
Proof.
  induction ks as [|k ks IH]; intros p i n m P M; cbn [dblks_steps]; [constructor|].
  destruct (dblk_parts k) as [[ty len] body]. apply beyond_app; [eapply beyond_le; [exact M|apply beyond_block]|].
  cbn [app]. constructor; [cbn [fst]; lia|]. apply IH; [exact P|]. unfold block_end. lia.
Qed.

Lemma beyond_dl : forall n d ks, beyond n (dl_steps n d ks).
Proof.
  intros n d ks. unfold dl_steps. apply beyond_app; [apply beyond_block|]. apply beyond_dblks; [lia|]. unfold block_end. lia.
Qed.

Lemma puts_block : forall f x, puts f (block_steps (length f) x) = f ++ repeat 0 (pad8 (length f)) ++ x.
Proof. intros. unfold block_steps. apply puts_appended_all. Qed.

Lemma block_end_length : forall f x, length (f ++ repeat 0 (pad8 (length f)) ++ x) = block_end (length f) x.
Proof. intros. unfold block_end. rewrite !app_length, repeat_length. lia. Qed.

Lemma concat_8 : forall xs, Forall (fun x : list N => length x = 8%nat) xs -> length (concat xs) = (8 * length xs)%nat.
Proof. induction xs as [|x xs IH]; intros H; [reflexivity|]. inversion H; subst. cbn [concat length]. rewrite app_length, IH by auto. lia. Qed.

(** The size of a block is that in its header. *)
Definition len_ok (k : dblk) : Prop :=
  let '(_, len, body) := dblk_parts k in len = N.of_nat (24 + length body).

Lemma write_new : forall ty len links body f, (0 < length f)%nat -> len = N.of_nat (24 + 8 * length links + length body) ->
  write_block4 ty len links body f =
  Ok (puts f (block_steps (length f) (new_block ty len links body)), mkB (length f + pad8 (length f)) ty len links).
Proof.
  intros ty len links body f NE ->. rewrite puts_block. unfold new_block. rewrite write_block4_spec by exact NE. reflexivity.
Qed.

Lemma numbers_len : forall n l, length (numbers n l) = (8 * n)%nat.
Proof.
  intros n l. unfold numbers. rewrite concat_8; rewrite ?map_length, ?seq_length; auto.
  apply Forall_map. apply Forall_forall. intros i _. apply le_bytes_length.
Qed.

Lemma dl_len : forall d n, dl_length d n = N.of_nat (24 + 8 * length (repeat 0 (1 + n)) + length (dl_body d n)).
Proof.
  intros d n. rewrite repeat_length. unfold dl_length, dl_body. rewrite !app_length, !le_bytes_length, repeat_length.
  destruct (N.testbit (dl_flags d) 0), (N.testbit (dl_flags d) 1), (N.testbit (dl_flags d) 2), (N.testbit (dl_flags d) 3);
    rewrite ?numbers_len, ?le_bytes_length; cbn [length]; lia.
Qed.

Lemma puts_one : forall f p bs, puts f [(p, bs)] = put f p bs.
Proof. reflexivity. Qed.

Lemma link_new : forall b i l f, (0 < b_pos b)%nat -> (i < length (b_links b))%nat -> link b i = 0 -> l <> 0 ->
  update_link4 b i l f = Ok (puts f [(b_pos b + 24 + 8 * i, le_bytes 8 l)]%nat,
    mkB (b_pos b) (b_type b) (b_len b) (set_nth (b_links b) i l)).
Proof.
  intros b i l f P L Z NZ. unfold update_link4. rewrite Z.
  replace (length (b_links b) <=? i)%nat with false by (symmetry; apply Nat.leb_gt; auto).
  replace (l =? 0) with false by (symmetry; apply N.eqb_neq; auto).
  replace (0 <? b_pos b)%nat with true by (symmetry; apply Nat.ltb_lt; auto). reflexivity.
Qed.

Lemma write_dblks_steps : forall ks b i f, (0 < length f)%nat -> (0 < b_pos b)%nat -> Forall len_ok ks ->
  (i + length ks <= length (b_links b))%nat -> (forall j, (i <= j)%nat -> link b j = 0) ->
  (b_pos b + 24 + 8 * (i + length ks) <= length f)%nat ->
  exists b', write_dblks b i ks f = Ok (puts f (dblks_steps (b_pos b) i (length f) ks), b') /\ b_pos b' = b_pos b.
Proof.
  induction ks as [|k ks IH]; intros b i f NE P LO L Z IN; cbn [write_dblks dblks_steps]; [exists b; split; reflexivity|].
  inversion LO as [|? ? L1 L2]; subst. unfold write_dblk, len_ok in *. destruct (dblk_parts k) as [[ty len] body] eqn:EK.
  cbn [length] in *. rewrite write_new; [|exact NE|rewrite L1; cbn [length]; f_equal; lia]. cbn [bind b_pos].
  set (x := new_block ty len [] body). set (f1 := puts f (block_steps (length f) x)).
  assert (LF : length f1 = block_end (length f) x) by (unfold f1; rewrite puts_block; apply block_end_length).
  rewrite link_new; [|exact P|lia|apply Z; lia|lia]. cbn [bind].
  set (l := N.of_nat (length f + pad8 (length f))). set (w := [(b_pos b + 24 + 8 * i, le_bytes 8 l)]%nat).
  assert (LW : length (puts f1 w) = length f1).
  { apply puts_length. constructor; [|constructor]. cbn [fst snd]. rewrite le_bytes_length, LF. unfold block_end. lia. }
  destruct (IH (mkB (b_pos b) (b_type b) (b_len b) (set_nth (b_links b) i l)) (S i) (puts f1 w)) as (b' & E & B).
  - rewrite LW, LF. unfold block_end. lia.
  - exact P.
  - exact L2.
  - cbn [b_links]. rewrite set_nth_length. lia.
  - intros j J. unfold link. cbn [b_links]. rewrite link_set_nth by lia. replace (j =? i)%nat with false by (symmetry; apply Nat.eqb_neq; lia).
    apply Z. lia.
  - cbn [b_pos]. rewrite LW, LF. unfold block_end. lia.
  - cbn [b_pos] in *. exists b'. split; [|exact B]. rewrite E. f_equal. f_equal.
    rewrite !puts_app. fold f1 w. rewrite LW, LF. reflexivity.
Qed.

Lemma write_dl_steps : forall d ks f, (0 < length f)%nat -> Forall len_ok ks ->
  exists b, write_dl d ks f = Ok (puts f (dl_steps (length f) d ks), b) /\ b_pos b = (length f + pad8 (length f))%nat.
Proof.
  intros d ks f NE LO. unfold write_dl. rewrite write_new by (auto using dl_len). cbn [bind].
  fold (dl_new d (length ks)). set (x := dl_new d (length ks)). set (f1 := puts f (block_steps (length f) x)).
  assert (LF : length f1 = block_end (length f) x) by (unfold f1; rewrite puts_block; apply block_end_length).
  assert (LX : (24 + 8 * (1 + length ks) <= length x)%nat).
  { unfold x, dl_new, new_block. rewrite app_length, header_bytes_length, repeat_length. lia. }
  destruct (write_dblks_steps ks (mkB (length f + pad8 (length f)) ty_dl (dl_length d (length ks)) (repeat 0 (1 + length ks))) 1 f1) as (b' & E & B).
  - rewrite LF. unfold block_end. lia.
  - cbn [b_pos]. lia.
  - exact LO.
  - cbn [b_links]. rewrite repeat_length. lia.
  - intros j J. unfold link. cbn [b_links]. apply nth_repeat.
  - cbn [b_pos]. rewrite LF. unfold block_end. lia.
  - cbn [b_pos] in *. exists b'. rewrite E. split; [|exact B]. f_equal. f_equal. unfold dl_steps. fold x. rewrite puts_app. fold f1.
    rewrite LF. reflexivity.
Qed.

Lemma pack_len : forall deflate x, len_ok (BZip (dz_pack deflate [68; 84] 0 0 x)).
Proof.
  intros deflate x. unfold len_ok, dblk_parts, dz_pack. cbn [N.eqb]. destruct x as [|a x].
  - unfold dz_body. cbn [dz_len dz_orig_type dz_type dz_param dz_orig_len dz_data]. rewrite !app_length, !le_bytes_length. reflexivity.
  - unfold dz_body. cbn [dz_len dz_orig_type dz_type dz_param dz_orig_len dz_data]. rewrite !app_length, !le_bytes_length.
    change (length (str_bytes 2 [68; 84])) with 2%nat. cbn [length]. lia.
Qed.

Lemma step_len : forall deflate full rest, Forall len_ok (step_blocks deflate full rest).
Proof.
  intros deflate full rest. unfold step_blocks. apply Forall_app. split.
  - apply Forall_map. apply Forall_forall. intros x _. apply pack_len.
  - destruct rest as [|a rest]; [constructor|]. constructor; [|constructor].
    destruct (100 <? N.of_nat (length (a :: rest))); [apply pack_len|]. unfold len_ok, dblk_parts. lia.
Qed.

Lemma last_steps_file : forall p l f f' l', set_last p l f = (f', l') ->
  f' = puts f (last_steps p l (length f)) /\
  l' = if l =? 0 then N.of_nat (length f + pad8 (length f)) else l.
Proof.
  intros p l f f' l' E. unfold set_last, last_steps in *. destruct (l =? 0); injection E as <- <-; [|split; reflexivity].
  assert (LA : length (align f) = (length f + pad8 (length f))%nat) by (unfold align; rewrite app_length, repeat_length; reflexivity).
  rewrite LA. split; [|reflexivity]. rewrite puts_app, puts_appended_all. reflexivity.
Qed.
