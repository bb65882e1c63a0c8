(** Blocks appended to a file, sizes, strings, texts, MDF3 blocks. *)
From Verif Require Import Base BlockModel BlockSpec BlockProofs BlockProofs2 BlockProofs3.
Local Open Scope N_scope.

(* ------------------------------------------------------------------ *)
(** ** Sequences of blocks *)

(** A block written and, after any growth of the file, read. *)
Lemma block_round_trip : forall ty len links body f,
  type_ok 4 ty -> Forall (fun l => l < 2 ^ 64) links -> (0 < length f)%nat ->
  N.of_nat (24 + 8 * length links + length body) < 2 ^ 64 ->
  exists f' b, write_block4 ty len links body f = Ok (f', b) /\
    b_type b = ty /\ b_links b = links /\ b_len b = N.of_nat (24 + 8 * length links + length body) /\
    forall g, exists p, read_header4 (f' ++ g) (b_pos b) = Ok (b, p) /\
      slice p (N.to_nat (b_len b) - (24 + 8 * length links)) (f' ++ g) = body.
Proof.
  intros ty len links body f T FL NE B. rewrite write_block4_spec by auto.
  eexists _, _. split; [reflexivity|]. cbn [b_type b_links b_len b_pos].
  split; [auto|]. split; [auto|]. split; [auto|]. intros g.
  set (size := N.of_nat (24 + 8 * length links + length body)) in *.
  set (pos := (length f + pad8 (length f))%nat).
  assert (H : holds ((f ++ repeat 0 (pad8 (length f)) ++ header_bytes ty size links ++ body) ++ g) pos
                (header_bytes ty size links ++ body)).
  { apply holds_ext. rewrite app_assoc. rewrite <- (app_nil_r (header_bytes ty size links ++ body)).
    replace pos with (length (f ++ repeat 0 (pad8 (length f)))) by (rewrite app_length, repeat_length; auto).
    pose proof (holds_end (f ++ repeat 0 (pad8 (length f))) (header_bytes ty size links ++ body) []) as H.
    rewrite app_nil_r in *. exact H. }
  apply holds_app in H as [H1 H2]. eexists. split.
  - apply read_header4_at; eauto.
    + eapply type_plain; eauto.
    + destruct T. lia.
    + lia.
  - rewrite header_bytes_length in H2. apply holds_slice in H2 as [H2 _]. unfold size. rewrite Nat2N.id.
    replace (24 + 8 * length links + length body - (24 + 8 * length links))%nat with (length body) by lia.
    exact H2.
Qed.

Definition blk_end (b : blk) : nat := (b_pos b + N.to_nat (b_len b))%nat.

(** Blocks one after the other, each at a multiple of eight, from [lo] to [hi]. *)
Fixpoint laid (lo : nat) (bs : list blk) (hi : nat) : Prop :=
  match bs with
  | [] => (lo <= hi)%nat
  | b :: r => (lo <= b_pos b)%nat /\ (b_pos b mod 8 = 0)%nat /\ laid (blk_end b) r hi
  end.

Lemma write_seq_spec : forall bs f, (0 < length f)%nat ->
  exists g l, write_seq bs f = Ok (f ++ g, l) /\ laid (length f) l (length (f ++ g)) /\
    Forall2 (fun x b => b_type b = fst (fst x) /\ b_links b = snd (fst x) /\
      b_len b = N.of_nat (24 + 8 * length (snd (fst x)) + length (snd x)) /\
      holds (f ++ g) (b_pos b) (header_bytes (fst (fst x)) (b_len b) (snd (fst x)) ++ snd x)) bs l.
Proof.
  induction bs as [|[[ty links] body] bs IH]; intros f NE.
  - exists [], []. cbn [write_seq laid]. rewrite app_nil_r. auto.
  - cbn [write_seq]. rewrite write_block4_spec by auto. cbn [bind].
    set (pad := repeat 0 (pad8 (length f))).
    set (size := N.of_nat (24 + 8 * length links + length body)).
    set (blkb := header_bytes ty size links ++ body).
    set (f1 := f ++ pad ++ blkb).
    assert (L1 : length f1 = (length f + pad8 (length f) + (24 + 8 * length links + length body))%nat).
    { unfold f1, blkb, pad. rewrite !app_length, repeat_length, header_bytes_length. lia. }
    destruct (IH f1 ltac:(lia)) as (g & l & E & LA & FA). rewrite E. cbn [bind].
    exists (pad ++ blkb ++ g). eexists. split; [|split].
    + unfold f1. rewrite <- !app_assoc. reflexivity.
    + cbn [laid b_pos]. split; [lia|]. split; [apply pad8_align|].
      assert (EF : f ++ pad ++ blkb ++ g = f1 ++ g) by (unfold f1; rewrite <- !app_assoc; reflexivity).
      rewrite EF. replace (blk_end _) with (length f1); [exact LA|].
      unfold blk_end. cbn [b_pos b_len]. unfold size. rewrite Nat2N.id. lia.
    + assert (EF : f ++ pad ++ blkb ++ g = f1 ++ g) by (unfold f1; rewrite <- !app_assoc; reflexivity).
      rewrite EF. constructor; [|exact FA]. cbn [fst snd b_type b_links b_len b_pos].
      split; [auto|]. split; [auto|]. split; [auto|]. fold blkb. apply holds_ext. unfold f1.
      replace (length f + pad8 (length f))%nat with (length (f ++ pad))
        by (unfold pad; rewrite app_length, repeat_length; auto).
      rewrite app_assoc. pose proof (holds_end (f ++ pad) blkb []) as H. rewrite app_nil_r in H. exact H.
Qed.

(** The blocks of a laid out file do not overlap. *)
Lemma laid_range : forall bs lo hi b, laid lo bs hi -> In b bs ->
  (lo <= b_pos b)%nat /\ (blk_end b <= hi)%nat /\ (b_pos b mod 8 = 0)%nat.
Proof.
  assert (LE : forall bs lo hi, laid lo bs hi -> (lo <= hi)%nat).
  { induction bs as [|c bs IH]; intros lo hi H; cbn [laid] in H; auto.
    destruct H as (A & _ & B). apply IH in B. revert A B. unfold blk_end. lia. }
  induction bs as [|c bs IH]; intros lo hi b H IN; [destruct IN|]. cbn [laid] in H.
  destruct H as (A & M & B). pose proof (LE _ _ _ B) as L. destruct IN as [->|IN].
  - auto.
  - destruct (IH _ _ _ B IN) as (C & D & E). split; [|auto]. revert C A. unfold blk_end. lia.
Qed.

Lemma laid_disjoint : forall bs lo hi i j a b, laid lo bs hi -> (i < j)%nat ->
  nth_error bs i = Some a -> nth_error bs j = Some b -> (blk_end a <= b_pos b)%nat.
Proof.
  induction bs as [|c bs IH]; intros lo hi [|i] [|j] a b H L A B; try lia; try discriminate A; cbn [laid] in H;
    destruct H as (_ & _ & H).
  - injection A as ->. cbn in B. apply nth_error_In in B. apply (laid_range _ _ _ _ H B).
  - apply (IH _ _ i j a b H); [lia|exact A|exact B].
Qed.

(* ------------------------------------------------------------------ *)
(** ** UpdateBlockSize *)

Lemma update_size4_spec : forall b n f, (0 < b_pos b)%nat ->
  holds f (b_pos b) (header_bytes (b_type b) (b_len b) (b_links b)) ->
  exists f', update_size4 b n f = Ok (f', mkB (b_pos b) (b_type b) n (b_links b)) /\
    same_outside f f' (b_pos b + 8) 8 /\
    holds f' (b_pos b) (header_bytes (b_type b) n (b_links b)).
Proof.
  intros b n f P H. unfold update_size4.
  replace (b_pos b =? 0)%nat with false by (symmetry; apply Nat.eqb_neq; lia).
  assert (HL : (b_pos b + (24 + 8 * length (b_links b)) <= length f)%nat).
  { destruct H as [H _]. rewrite header_bytes_length in H. auto. }
  destruct (N.eqb_spec (b_len b) n) as [<-|NE].
  - exists f. split; [destruct b; reflexivity|]. split; [split; auto|auto].
  - eexists. split; [reflexivity|].
    assert (SO : same_outside f (put f (b_pos b + 8) (le_bytes 8 n)) (b_pos b + 8) 8).
    { pose proof (put_same_outside f (b_pos b + 8) (le_bytes 8 n)) as Q.
      rewrite le_bytes_length in Q. apply Q. lia. }
    split; [exact SO|]. unfold header_bytes in *.
    apply holds_app in H as [H1 H]. apply holds_app in H as [H2 H]. apply holds_app in H as [H3 H].
    rewrite str_bytes_length, ?repeat_length, ?le_bytes_length in *.
    apply holds_app. split.
    { apply (holds_frame _ _ _ _ _ _ SO H1). rewrite str_bytes_length. lia. }
    apply holds_app. rewrite str_bytes_length. split.
    { apply (holds_frame _ _ _ _ _ _ SO H2). rewrite repeat_length. lia. }
    rewrite repeat_length. apply holds_app. rewrite le_bytes_length. split.
    { replace (b_pos b + 4 + 4)%nat with (b_pos b + 8)%nat by lia. apply holds_put. rewrite le_bytes_length. lia. }
    apply (holds_frame _ _ _ _ _ _ SO H). lia.
Qed.

(* ------------------------------------------------------------------ *)
(** ** Strings and texts *)

Lemma read_chars_cut : forall bs f pos, holds f pos bs -> fst (read_chars (length bs) f pos) = cut bs.
Proof.
  induction bs as [|c bs IH]; intros f pos H; [reflexivity|].
  change (c :: bs) with ([c] ++ bs) in H. apply holds_app in H as [H1 H2].
  destruct H1 as [_ H1]. specialize (H1 0%nat ltac:(cbn; lia)). rewrite Nat.add_0_r in H1. cbn in H1.
  cbn [length] in H2. replace (pos + 1)%nat with (S pos) in H2 by lia. apply IH in H2.
  cbn [read_chars length cut]. rewrite H1. destruct (N.eqb_spec c 0) as [->|NZ]; [reflexivity|].
  destruct (read_chars (length bs) f (S pos)) as [s u]. cbn [fst] in H2. subst s.
  destruct c; [congruence|reflexivity].
Qed.

Lemma cut_app_zero : forall a b, cut (a ++ 0 :: b) = cut a.
Proof.
  induction a as [|c a IH]; intros b; [reflexivity|]. cbn [app cut]. destruct (c =? 0); auto. f_equal. auto.
Qed.

Lemma cut_id : forall s, ~ In 0 s -> cut s = s.
Proof.
  induction s as [|c s IH]; intros H; [reflexivity|]. cbn [cut]. destruct (N.eqb_spec c 0) as [->|].
  - exfalso. apply H. left. auto.
  - f_equal. apply IH. intros X. apply H. right. auto.
Qed.

Lemma cut_no_zero : forall s, ~ In 0 (cut s).
Proof.
  induction s as [|c s IH]; cbn [cut]; [auto|]. destruct (N.eqb_spec c 0); [auto|].
  intros [X|X]; auto.
Qed.

Lemma cut_str_bytes : forall n s, cut (str_bytes n s) = cut (firstn n s).
Proof.
  intros n s. unfold str_bytes. rewrite firstn_app.
  destruct (n - length s)%nat as [|k] eqn:E.
  - cbn [firstn]. rewrite app_nil_r. reflexivity.
  - destruct n as [|n]; [lia|]. cbn [repeat firstn]. apply cut_app_zero.
Qed.

(** What is read from a field in which a string was written, for every string. *)
Lemma read_str_any : forall n s f pos, holds f pos (str_bytes n s) ->
  read_str n f pos = (trim (cut (firstn n s)), (pos + n)%nat).
Proof.
  intros n s f pos H. unfold read_str. f_equal. f_equal.
  apply read_chars_cut in H. rewrite str_bytes_length, cut_str_bytes in H. auto.
Qed.

Lemma trim_plain : forall s, ~ In 0 s -> plain_text (trim s).
Proof.
  intros s NZ. destruct (trim_spec s) as (a & b & E & _ & _ & D). split.
  - intros X. apply NZ. rewrite E. apply in_or_app. right. apply in_or_app. auto.
  - intros NE. destruct D as [D|D]; [congruence|auto].
Qed.

Lemma tx4_any : forall s f, (0 < length f)%nat -> N.of_nat (25 + length s) < 2 ^ 64 ->
  exists f' b, write_tx4 s f = Ok (f', b) /\ forall g, tx4_text (f' ++ g) (b_pos b) = Ok (trim (cut s)).
Proof.
  intros s f NE B. unfold write_tx4.
  set (ty := if match s with 60 :: _ => true | _ => false end then ty_md else ty_tx).
  assert (T : type_ok 4 ty).
  { unfold ty. destruct (match s with 60 :: _ => true | _ => false end);
      (split; [reflexivity|]; split; [|split; reflexivity]); intros X; cbn in X;
      decompose [or] X; auto; discriminate. }
  destruct (block_round_trip ty 0 [] (s ++ [0]) f T ltac:(constructor) NE) as (f' & b & E & B1 & B2 & B3 & R).
  { rewrite app_length. cbn [length]. lia. }
  exists f', b. split; [exact E|]. intros g. destruct (R g) as (p & RH & SL). cbn [length] in *.
  rewrite Nat.mul_0_r, Nat.add_0_r, app_length in *. cbn [length] in *.
  unfold tx4_text, read_tx4. rewrite RH. cbn [bind]. rewrite B2. cbn [length]. rewrite Nat.mul_0_r, Nat.add_0_r.
  assert (W : w64 (b_len b + (2 ^ 64 - N.of_nat 24)) = N.of_nat (length s + 1)).
  { rewrite B3. unfold w64. replace (N.of_nat (24 + (length s + 1)) + (2 ^ 64 - N.of_nat 24))
      with (N.of_nat (length s + 1) + 1 * 2 ^ 64) by lia.
    rewrite N.mod_add by lia. apply N.mod_small. lia. }
  rewrite W, Nat2N.id. f_equal. unfold read_str. cbn [fst].
  assert (HH : holds (f' ++ g) p (s ++ [0])).
  { apply holds_slice. rewrite app_length. cbn [length]. rewrite B3 in SL.
    replace (N.to_nat (N.of_nat (24 + (length s + 1))) - 24)%nat with (length s + 1)%nat in SL by lia.
    split; auto. assert (LL : length (slice p (length s + 1) (f' ++ g)) = (length s + 1)%nat)
      by (rewrite SL, app_length; reflexivity).
    unfold slice in LL. rewrite firstn_length, skipn_length in LL. lia. }
  apply read_chars_cut in HH. rewrite app_length in HH. cbn [length] in HH. rewrite HH, cut_app_zero.
  apply trim_id. apply trim_plain. apply cut_no_zero.
Qed.

(* ------------------------------------------------------------------ *)
(** ** MDF3 *)

Lemma header3_length : forall big ty size links,
  length (header3_bytes big ty size links) = (4 + 4 * length links)%nat.
Proof.
  intros. unfold header3_bytes. rewrite !app_length, str_bytes_length, num_bytes_length.
  assert (E : length (concat (map (fun l => num_bytes big 4 (w32 l)) links)) = (4 * length links)%nat).
  { induction links as [|l r IH]; [reflexivity|]. cbn [map concat length].
    rewrite app_length, num_bytes_length, IH. lia. }
  rewrite E. lia.
Qed.

Lemma links3_small : forall big links, Forall (fun l => l < 2 ^ 32) links ->
  map (fun l => num_bytes big 4 (w32 l)) links = map (num_bytes big 4) links.
Proof.
  intros big links F. apply map_ext_in. intros l IN. rewrite Forall_forall in F.
  unfold w32. rewrite N.mod_small by (apply F; auto). reflexivity.
Qed.

Lemma read_header3_at : forall big f pos ty size links,
  holds f pos (header3_bytes big ty size links) -> type_ok 2 ty -> ty <> [35; 35] ->
  size < 2 ^ 16 -> Forall (fun l => l < 2 ^ 32) links ->
  read_header3 big (length links) f pos = Ok (mkB pos ty size links, (pos + (4 + 4 * length links))%nat).
Proof.
  intros big f pos ty size links H T NT B F. unfold header3_bytes in H.
  rewrite links3_small in H by auto.
  apply holds_app in H as [H1 H]. apply holds_app in H as [H2 H3].
  rewrite str_bytes_length, num_bytes_length in *.
  unfold read_header3. rewrite (read_str_written 2 ty f pos (type_plain _ _ T)) by (auto; destruct T; lia).
  assert (M : match ty with [a; b] => (a =? 35) && (b =? 35) | _ => false end = false).
  { destruct ty as [|a [|b [|c r]]]; auto. destruct (N.eqb_spec a 35); destruct (N.eqb_spec b 35); auto.
    subst. congruence. }
  rewrite M.
  rewrite (read_num_any big f (pos + 2) 2 size) by (auto; change (256 ^ N.of_nat 2) with (2 ^ 16); auto).
  cbn [bind]. rewrite (read_links_any big 4 links).
  - cbn [bind]. f_equal. f_equal. lia.
  - replace (pos + 2 + 2)%nat with (pos + 2 + 2)%nat by lia. exact H3.
  - change (256 ^ N.of_nat 4) with (2 ^ 32). auto.
Qed.

Lemma write_header3_read : forall big ty size links f g body,
  type_ok 2 ty -> ty <> [35; 35] -> size < 2 ^ 16 -> Forall (fun l => l < 2 ^ 32) links ->
  exists f' b p, write_header3 big (mkB 0 ty size links) f = (f', b, p) /\ p = length f' /\
    b_pos b = length f /\
    read_header3 big (length links) (put f' p body ++ g) (b_pos b) = Ok (mkB (length f) ty size links, p) /\
    slice p (length body) (put f' p body ++ g) = body.
Proof.
  intros big ty size links f g body T NT B F. unfold write_header3. cbn [b_type b_len b_links].
  rewrite put_end. eexists _, _, _. split; [reflexivity|]. rewrite app_length. split; [auto|].
  cbn [b_pos]. split; [auto|]. set (h := header3_bytes big ty size links).
  rewrite <- app_length, put_end.
  assert (H : holds (((f ++ h) ++ body) ++ g) (length f) (h ++ body)).
  { rewrite <- !app_assoc. rewrite (app_assoc h body g). apply holds_end. }
  apply holds_app in H as [H1 H2]. split.
  - rewrite (read_header3_at big _ _ ty size links H1) by auto. f_equal. f_equal.
    rewrite app_length. unfold h. rewrite header3_length. reflexivity.
  - rewrite app_length. apply holds_slice in H2 as [H2 _]. exact H2.
Qed.

Lemma tx3_any : forall big s f, N.of_nat (length s) <= 65530 ->
  forall g, tx3_text big (fst (write_tx3 big s f) ++ g) (snd (write_tx3 big s f)) = Ok (trim (cut s)).
Proof.
  intros big s f L g. unfold write_tx3.
  assert (W : w16 (N.of_nat (4 + length s + 1)) = N.of_nat (4 + length s + 1)).
  { unfold w16. apply N.mod_small. lia. }
  rewrite W.
  assert (T : type_ok 2 [84; 88]).
  { split; [reflexivity|]. split; [|split; reflexivity]. intros X; cbn in X; decompose [or] X; auto; discriminate. }
  destruct (write_header3_read big [84; 88] (N.of_nat (4 + length s + 1)) [] f g (s ++ [0]) T)
    as (f' & b & p & E & P & BP & R & SL); [discriminate|lia|constructor|].
  rewrite E. cbn [fst snd]. cbn [length] in R. unfold tx3_text. rewrite R. cbn [bind b_len].
  assert (W2 : w64 (N.of_nat (4 + length s + 1) + (2 ^ 64 - 4)) = N.of_nat (length s + 1)).
  { unfold w64. replace (N.of_nat (4 + length s + 1) + (2 ^ 64 - 4))
      with (N.of_nat (length s + 1) + 1 * 2 ^ 64) by lia.
    rewrite N.mod_add by lia. apply N.mod_small. lia. }
  rewrite W2, Nat2N.id. f_equal. unfold read_str. cbn [fst].
  assert (HH : holds (put f' p (s ++ [0]) ++ g) p (s ++ [0])).
  { apply holds_slice. split; auto. rewrite P, put_end, !app_length. lia. }
  apply read_chars_cut in HH. rewrite app_length in HH. cbn [length] in HH. rewrite HH, cut_app_zero.
  apply trim_id. apply trim_plain. apply cut_no_zero.
Qed.

(** UpdateLink of an MDF3 block. *)
Lemma concat_num_length : forall big l, length (concat (map (fun l => num_bytes big 4 (w32 l)) l)) = (4 * length l)%nat.
Proof.
  induction l as [|x r IH]; [reflexivity|]. cbn [map concat length].
  rewrite app_length, num_bytes_length, IH. lia.
Qed.

Lemma header3_split : forall big ty len a x b, header3_bytes big ty len (a ++ x :: b) =
  (str_bytes 2 ty ++ num_bytes big 2 len ++ concat (map (fun l => num_bytes big 4 (w32 l)) a))
   ++ num_bytes big 4 (w32 x) ++ concat (map (fun l => num_bytes big 4 (w32 l)) b).
Proof.
  intros. unfold header3_bytes. rewrite map_app, concat_app. cbn [map concat].
  rewrite <- !app_assoc. reflexivity.
Qed.

Lemma update_link3_spec : forall big b i l f, (0 < b_pos b)%nat -> (i < length (b_links b))%nat ->
  holds f (b_pos b) (header3_bytes big (b_type b) (b_len b) (b_links b)) ->
  exists f', update_link3 big b i l f = Ok (f', mkB (b_pos b) (b_type b) (b_len b) (set_nth (b_links b) i l)) /\
    same_outside f f' (b_pos b + 4 + 4 * i) 4 /\
    holds f' (b_pos b) (header3_bytes big (b_type b) (b_len b) (set_nth (b_links b) i l)).
Proof.
  intros big b i l f P L H. unfold update_link3.
  replace (length (b_links b) <=? i)%nat with false by (symmetry; apply Nat.leb_gt; auto).
  replace (0 <? b_pos b)%nat with true by (symmetry; apply Nat.ltb_lt; auto).
  assert (HL : (b_pos b + (4 + 4 * length (b_links b)) <= length f)%nat).
  { destruct H as [H _]. rewrite header3_length in H. auto. }
  destruct (N.eqb_spec l (link b i)) as [E|E].
  - exists f. unfold link in E. rewrite E, set_nth_same. split; [destruct b; reflexivity|]. split; [split; auto|auto].
  - eexists. split; [reflexivity|].
    assert (SO : same_outside f (put f (b_pos b + 4 + 4 * i) (num_bytes big 4 (w32 l))) (b_pos b + 4 + 4 * i) 4).
    { pose proof (put_same_outside f (b_pos b + 4 + 4 * i) (num_bytes big 4 (w32 l))) as Q.
      rewrite num_bytes_length in Q. apply Q. lia. }
    split; [exact SO|].
    destruct (set_nth_spec (b_links b) i l L) as (a & x & c & EL & LA & S). rewrite S. rewrite EL in H.
    rewrite header3_split in *.
    set (h := str_bytes 2 (b_type b) ++ num_bytes big 2 (b_len b)
              ++ concat (map (fun l => num_bytes big 4 (w32 l)) a)) in *.
    assert (LH : length h = (4 + 4 * i)%nat).
    { unfold h. rewrite !app_length, str_bytes_length, num_bytes_length, concat_num_length. lia. }
    apply holds_app in H as [H1 H2]. rewrite LH in H2. apply holds_app in H2 as [H2 H3].
    rewrite num_bytes_length in H3.
    apply holds_app. split; [|rewrite LH; apply holds_app; split].
    + apply (holds_frame f _ _ 4 _ _ SO H1). lia.
    + replace (b_pos b + (4 + 4 * i))%nat with (b_pos b + 4 + 4 * i)%nat by lia.
      apply holds_put. rewrite num_bytes_length. lia.
    + rewrite num_bytes_length. apply (holds_frame f _ _ 4 _ _ SO H3). lia.
Qed.
