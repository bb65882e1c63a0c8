(** Writing and updating blocks, lists of blocks. *)
From Verif Require Import Base BlockModel BlockSpec BlockProofs.
Local Open Scope N_scope.

Lemma pad8_align : forall n, ((n + pad8 n) mod 8 = 0)%nat /\ (pad8 n < 8)%nat.
Proof.
  intros n. unfold pad8. pose proof (Nat.mod_upper_bound n 8 ltac:(lia)).
  split; [|apply Nat.mod_upper_bound; lia].
  pose proof (Nat.div_mod n 8 ltac:(lia)) as D.
  destruct (Nat.eq_dec (n mod 8) 0) as [Z|Z].
  - rewrite Z. cbn [Nat.sub]. rewrite Nat.mod_same by lia. rewrite Nat.add_0_r. auto.
  - rewrite (Nat.mod_small (8 - n mod 8)) by lia.
    replace (n + (8 - n mod 8))%nat with ((n / 8 + 1) * 8)%nat by lia. apply Nat.mod_mul. lia.
Qed.

(** The whole effect of writing a block: padding to the next multiple of eight and the block, with
    its true length. *)
Lemma write_block4_spec : forall ty len links body f, (0 < length f)%nat ->
  let pos := (length f + pad8 (length f))%nat in
  let size := N.of_nat (24 + 8 * length links + length body) in
  write_block4 ty len links body f =
  Ok (f ++ repeat 0 (pad8 (length f)) ++ header_bytes ty size links ++ body,
      mkB pos ty size links).
Proof.
  intros ty len links body f NE pos size. unfold write_block4, write_header4. cbn [b_type b_len b_links].
  assert (LA : length (align f) = pos).
  { unfold align. rewrite app_length, repeat_length. reflexivity. }
  rewrite put_end.
  assert (LH : length (align f ++ header_bytes ty len links) = (length (align f) + length (header_bytes ty len links))%nat)
    by apply app_length.
  rewrite <- LH, put_end. unfold update_size4. cbn [b_pos b_len b_type b_links].
  rewrite LA. replace (pos =? 0)%nat with false by (symmetry; apply Nat.eqb_neq; unfold pos; lia).
  fold size. destruct (N.eqb_spec len size) as [->|NEQ].
  - f_equal. f_equal. unfold align. rewrite <- !app_assoc. reflexivity.
  - f_equal. f_equal.
    set (A := align f) in *.
    assert (E : forall l, (A ++ header_bytes ty l links) ++ body =
      (A ++ str_bytes 4 ty ++ repeat 0 4) ++ le_bytes 8 l
      ++ (le_bytes 8 (N.of_nat (length links)) ++ concat (map (le_bytes 8) links)) ++ body).
    { intros l. unfold header_bytes. rewrite <- !app_assoc. reflexivity. }
    rewrite (E len). set (H := A ++ str_bytes 4 ty ++ repeat 0 4) in *.
    assert (P8 : (pos + 8)%nat = length H).
    { unfold H. rewrite !app_length, str_bytes_length, repeat_length. lia. }
    rewrite P8. rewrite put_in by (rewrite app_length; lia).
    rewrite firstn_app, Nat.sub_diag, firstn_all. cbn [firstn]. rewrite app_nil_r.
    rewrite le_bytes_length, skipn_app, (skipn_all2 H) by lia.
    replace (length H + 8 - length H)%nat with 8%nat by lia.
    rewrite skipn_app, le_bytes_length, (skipn_all2 (le_bytes 8 len)) by (rewrite le_bytes_length; lia).
    rewrite Nat.sub_diag. cbn [skipn app]. rewrite <- (E size). unfold A, align. rewrite <- !app_assoc.
    reflexivity.
Qed.

(* ------------------------------------------------------------------ *)
(** ** Links *)

Lemma set_nth_length : forall l i v, length (set_nth l i v) = length l.
Proof. induction l; intros [|i] v; cbn; auto. Qed.

Lemma set_nth_spec : forall l i v, (i < length l)%nat ->
  exists a x b, l = a ++ x :: b /\ length a = i /\ set_nth l i v = a ++ v :: b.
Proof.
  induction l as [|x l IH]; intros [|i] v H; cbn in H; try lia.
  - exists [], x, l. auto.
  - destruct (IH i v ltac:(lia)) as (a & y & b & E & L & S). exists (x :: a), y, b. cbn [app length set_nth].
    rewrite S, L, <- E. auto.
Qed.

Lemma set_nth_same : forall l i, set_nth l i (nth i l 0) = l.
Proof. induction l as [|x l IH]; intros [|i]; cbn [set_nth nth]; auto. f_equal. auto. Qed.

Lemma set_nth_twice : forall l i a b, set_nth (set_nth l i a) i b = set_nth l i b.
Proof. induction l as [|x l IH]; intros [|i] a b; cbn [set_nth]; auto. f_equal. auto. Qed.

Lemma header_split : forall ty len a x b, header_bytes ty len (a ++ x :: b) =
  (str_bytes 4 ty ++ repeat 0 4 ++ le_bytes 8 len ++ le_bytes 8 (N.of_nat (length (a ++ x :: b)))
   ++ concat (map (le_bytes 8) a)) ++ le_bytes 8 x ++ concat (map (le_bytes 8) b).
Proof.
  intros. unfold header_bytes. rewrite map_app, concat_app. cbn [map concat].
  rewrite <- !app_assoc. reflexivity.
Qed.

Lemma concat_le_length : forall l, length (concat (map (le_bytes 8) l)) = (8 * length l)%nat.
Proof.
  induction l as [|x r IH]; [reflexivity|]. cbn [map concat length].
  rewrite app_length, le_bytes_length, IH. lia.
Qed.

Lemma holds_set_link : forall f pos ty len links i v, (i < length links)%nat ->
  holds f pos (header_bytes ty len links) ->
  holds (put f (pos + 24 + 8 * i) (le_bytes 8 v)) pos (header_bytes ty len (set_nth links i v)).
Proof.
  intros f pos ty len links i v L H.
  assert (HL : (pos + (24 + 8 * length links) <= length f)%nat).
  { destruct H as [H _]. rewrite header_bytes_length in H. auto. }
  destruct (set_nth_spec links i v L) as (a & x & b & E & LA & S). rewrite S.
  assert (SO : same_outside f (put f (pos + 24 + 8 * i) (le_bytes 8 v)) (pos + 24 + 8 * i) 8).
  { pose proof (put_same_outside f (pos + 24 + 8 * i) (le_bytes 8 v)) as P.
    rewrite le_bytes_length in P. apply P. lia. }
  assert (LL : length (a ++ v :: b) = length links) by (rewrite E, !app_length; reflexivity).
  subst links. rewrite header_split in *. rewrite LL.
  set (h := str_bytes 4 ty ++ repeat 0 4 ++ le_bytes 8 len
            ++ le_bytes 8 (N.of_nat (length (a ++ x :: b))) ++ concat (map (le_bytes 8) a)) in *.
  assert (LH : length h = (24 + 8 * i)%nat).
  { unfold h. rewrite !app_length, str_bytes_length, repeat_length, !le_bytes_length, concat_le_length. lia. }
  apply holds_app in H as [H1 H2]. rewrite LH in H2. apply holds_app in H2 as [H2 H3].
  rewrite le_bytes_length in H3.
  apply holds_app. split; [|rewrite LH; apply holds_app; split].
  - apply (holds_frame f _ _ 8 _ _ SO H1). lia.
  - replace (pos + (24 + 8 * i))%nat with (pos + 24 + 8 * i)%nat by lia.
    apply holds_put. rewrite le_bytes_length. lia.
  - rewrite le_bytes_length. apply (holds_frame f _ _ 8 _ _ SO H3). lia.
Qed.

Lemma same_link_bytes : forall f pos ty len links i, (i < length links)%nat ->
  holds f pos (header_bytes ty len links) ->
  holds f (pos + 24 + 8 * i) (le_bytes 8 (nth i links 0)).
Proof.
  intros f pos ty len links i L H.
  destruct (set_nth_spec links i 0 L) as (a & x & b & E & LA & _). subst links.
  rewrite header_split in H.
  set (h := str_bytes 4 ty ++ repeat 0 4 ++ le_bytes 8 len
            ++ le_bytes 8 (N.of_nat (length (a ++ x :: b))) ++ concat (map (le_bytes 8) a)) in *.
  assert (LH : length h = (24 + 8 * i)%nat).
  { unfold h. rewrite !app_length, str_bytes_length, repeat_length, !le_bytes_length, concat_le_length. lia. }
  apply holds_app in H as [_ H]. rewrite LH in H. apply holds_app in H as [H _].
  rewrite app_nth2, LA, Nat.sub_diag by lia. cbn [nth].
  replace (pos + 24 + 8 * i)%nat with (pos + (24 + 8 * i))%nat by lia. auto.
Qed.

(** UpdateLink of a block in the file. *)
Lemma update_link4_spec : forall b i l f, (0 < b_pos b)%nat -> (i < length (b_links b))%nat ->
  holds f (b_pos b) (header_bytes (b_type b) (b_len b) (b_links b)) ->
  exists f', update_link4 b i l f = Ok (f', mkB (b_pos b) (b_type b) (b_len b) (set_nth (b_links b) i l)) /\
    same_outside f f' (b_pos b + 24 + 8 * i) 8 /\
    holds f' (b_pos b) (header_bytes (b_type b) (b_len b) (set_nth (b_links b) i l)).
Proof.
  intros b i l f P L H. unfold update_link4, link.
  replace (length (b_links b) <=? i)%nat with false by (symmetry; apply Nat.leb_gt; auto).
  replace (0 <? b_pos b)%nat with true by (symmetry; apply Nat.ltb_lt; auto).
  assert (HL : (b_pos b + (24 + 8 * length (b_links b)) <= length f)%nat).
  { destruct H as [H _]. rewrite header_bytes_length in H. auto. }
  assert (SN : nth i (b_links b) 0 = l -> set_nth (b_links b) i l = b_links b).
  { destruct (set_nth_spec (b_links b) i l L) as (a & x & c & E & LA & S). rewrite S, E.
    rewrite app_nth2, LA, Nat.sub_diag by lia. cbn [nth]. intros ->. auto. }
  destruct (N.eqb_spec l (nth i (b_links b) 0)) as [E|E].
  - exists f. rewrite SN by auto. split; [destruct b; reflexivity|]. split; [split; auto|auto].
  - eexists. split; [reflexivity|]. split.
    + pose proof (put_same_outside f (b_pos b + 24 + 8 * i) (le_bytes 8 l)) as Q.
      rewrite le_bytes_length in Q. apply Q. lia.
    + apply holds_set_link; auto.
Qed.

(* ------------------------------------------------------------------ *)
(** ** Lists of blocks *)

Definition c_end (c : child) : nat :=
  (b_pos (c_blk c) + 24 + 8 * length (b_links (c_blk c)) + length (c_body c))%nat.

(** The child is in the file. *)
Definition stored (f : file) (c : child) : Prop :=
  (0 < b_pos (c_blk c))%nat /\ (0 < length (b_links (c_blk c)))%nat /\
  b_len (c_blk c) = N.of_nat (24 + 8 * length (b_links (c_blk c)) + length (c_body c)) /\
  holds f (b_pos (c_blk c)) (header_bytes (b_type (c_blk c)) (b_len (c_blk c)) (b_links (c_blk c))
                             ++ c_body c).

(** Consecutive children in the file, the first at link [l], all from [lo] on and before [hi], the
    last one linking to [n]. *)
Fixpoint seg (f : file) (lo : nat) (l : N) (cs : list child) (hi : nat) (n : N) : Prop :=
  match cs with
  | [] => lo = hi /\ l = n
  | c :: r => (lo <= b_pos (c_blk c))%nat /\ l = N.of_nat (b_pos (c_blk c)) /\ stored f c /\
              seg f (c_end c) (link (c_blk c) 0) r hi n
  end.

Lemma seg_app : forall a b f lo l hi n,
  seg f lo l (a ++ b) hi n <-> exists m x, seg f lo l a m x /\ seg f m x b hi n.
Proof.
  induction a as [|c a IH]; intros b f lo l hi n; cbn [app seg].
  - split; [intros H; exists lo, l; auto|]. intros (m & x & [-> ->] & H). auto.
  - split.
    + intros (A & B & C & D). apply IH in D as (m & x & D1 & D2). exists m, x. auto.
    + intros (m & x & (A & B & C & D1) & D2). repeat (split; auto). apply IH. exists m, x. auto.
Qed.

Lemma stored_range : forall f c, stored f c -> (c_end c <= length f)%nat.
Proof.
  intros f c (_ & _ & _ & [H _]). rewrite app_length, header_bytes_length in H. unfold c_end. lia.
Qed.

Lemma seg_range : forall cs f lo l hi n, seg f lo l cs hi n ->
  (lo <= hi)%nat /\ (cs <> [] -> (hi <= length f)%nat).
Proof.
  induction cs as [|c r IH]; intros f lo l hi n H; cbn [seg] in H.
  - destruct H as [-> _]. split; [lia|congruence].
  - destruct H as (A & B & C & D). pose proof (stored_range _ _ C). pose proof D as D0. apply IH in D as [D1 D2].
    assert (b_pos (c_blk c) <= c_end c)%nat by (unfold c_end; lia).
    split; [lia|]. intros _. destruct r as [|c2 r]; [|apply D2; discriminate].
    cbn [seg] in D0. lia.
Qed.

(** A change of the file outside the children. *)
Lemma stored_frame : forall f f' c, stored f c ->
  (length f <= length f')%nat ->
  (forall i, (b_pos (c_blk c) <= i < c_end c)%nat -> nth_error f' i = nth_error f i) -> stored f' c.
Proof.
  intros f f' c (A & B & C & [HL H]) L E. split; [auto|]. split; [auto|]. split; [auto|].
  split; [lia|]. intros i Hi. rewrite <- H by auto. apply E.
  rewrite app_length, header_bytes_length in Hi. unfold c_end. lia.
Qed.

Lemma seg_frame : forall cs f f' lo l hi n, seg f lo l cs hi n -> (length f <= length f')%nat ->
  (forall i, (lo <= i < hi)%nat -> nth_error f' i = nth_error f i) -> seg f' lo l cs hi n.
Proof.
  induction cs as [|c r IH]; intros f f' lo l hi n H L E; cbn [seg] in *; auto.
  destruct H as (A & B & C & D). pose proof (seg_range _ _ _ _ _ _ D) as [R _].
  assert (b_pos (c_blk c) <= c_end c)%nat by (unfold c_end; lia).
  split; auto. split; auto. split.
  - apply (stored_frame f); auto. intros i Hi. apply E. lia.
  - apply (IH f); auto. intros i Hi. apply E. lia.
Qed.

(** Two children with the same identifier, fields and further links. *)
Definition like (a b : child) : Prop :=
  b_type (c_blk a) = b_type (c_blk b) /\ tl (b_links (c_blk a)) = tl (b_links (c_blk b)) /\
  length (b_links (c_blk a)) = length (b_links (c_blk b)) /\
  c_body a = c_body b /\ c_tail a = c_tail b.

Lemma like_refl : forall c, like c c.
Proof. unfold like. auto. Qed.

Lemma like_trans : forall a b c, like a b -> like b c -> like a c.
Proof. unfold like. intros a b c (A1 & A2 & A3 & A4 & A5) (B1 & B2 & B3 & B4 & B5). rewrite A1, A2, A3, A4, A5. auto. Qed.

Lemma like_all_refl : forall l, Forall2 like l l.
Proof. induction l; constructor; auto. apply like_refl. Qed.

Lemma like_all_trans : forall a b c, Forall2 like a b -> Forall2 like b c -> Forall2 like a c.
Proof.
  intros a b c H. revert c. induction H; intros c H2; inversion H2; subst; constructor; eauto.
  eapply like_trans; eauto.
Qed.

(** The parent block lies before the children. *)
Definition parent_ok (f : file) (p : blk) (li lo : nat) : Prop :=
  (0 < b_pos p)%nat /\ (li < length (b_links p))%nat /\
  (b_pos p + 24 + 8 * length (b_links p) <= lo)%nat /\
  holds f (b_pos p) (header_bytes (b_type p) (b_len p) (b_links p)).

(** The list as kept in memory and in the file: the first children are stored, the others new. *)
Definition list_ok (f : file) (p : blk) (li lo : nat) (w u : list child) : Prop :=
  (lo <= length f)%nat /\ parent_ok f p li lo /\
  (exists hi, seg f lo (link p li) w hi 0) /\
  Forall (fun c => b_pos (c_blk c) = 0%nat /\ (0 < length (b_links (c_blk c)))%nat /\
                   link (c_blk c) 0 = 0) u.

Lemma link_set_nth : forall l i j v, (i < length l)%nat -> nth j (set_nth l i v) 0 = if (j =? i)%nat then v else nth j l 0.
Proof.
  induction l as [|x l IH]; intros [|i] [|j] v H; cbn in H |- *; try lia; auto.
  apply IH. lia.
Qed.

(** Appending one new child. *)
Lemma append_one : forall f p li lo w c u, list_ok f p li lo w (c :: u) ->
  exists f1 c1, write_child c f = Ok (f1, c1) /\ like c1 c /\ link (c_blk c1) 0 = 0 /\
  exists f2 p2 w2,
    match rev w with
    | [] => update_link4 p li (N.of_nat (b_pos (c_blk c1))) f1 = Ok (f2, p2) /\ w2 = w
    | q :: qs => exists qb, update_link4 (c_blk q) 0 (N.of_nat (b_pos (c_blk c1))) f1 = Ok (f2, qb) /\
                  p2 = p /\ w2 = rev qs ++ [mkChild qb (c_body q) (c_tail q)]
    end /\
    b_pos p2 = b_pos p /\ b_type p2 = b_type p /\ b_len p2 = b_len p /\
    b_links p2 = set_nth (b_links p) li (link p2 li) /\
    Forall2 like w2 w /\ list_ok f2 p2 li lo (w2 ++ [c1]) u /\ (length f <= length f2)%nat.
Proof.
  intros f p li lo w c u (LF & (PP & PL & PE & PH) & (hi & SG) & FU).
  apply Forall_cons_iff in FU as [(CP & CL & CN) FU].
  assert (NE : (0 < length f)%nat).
  { destruct PH as [PH _]. rewrite header_bytes_length in PH. lia. }
  unfold write_child. rewrite CP. change (0 <? 0)%nat with false. cbv iota.
  rewrite write_block4_spec by auto. cbn [bind].
  set (size := N.of_nat (24 + 8 * length (b_links (c_blk c)) + length (c_body c))).
  set (pos := (length f + pad8 (length f))%nat).
  set (pad := repeat 0 (pad8 (length f))).
  set (h := header_bytes (b_type (c_blk c)) size (b_links (c_blk c))).
  set (f1 := (f ++ pad ++ h ++ c_body c) ++ c_tail c).
  set (b1 := mkB pos (b_type (c_blk c)) size (b_links (c_blk c))).
  set (c1 := mkChild b1 (c_body c) (c_tail c)).
  assert (LP : length (f ++ pad) = pos) by (unfold pad; rewrite app_length, repeat_length; reflexivity).
  assert (ST : stored f1 c1).
  { split; [cbn; unfold pos; lia|]. split; [exact CL|]. split; [reflexivity|].
    cbn [c1 c_blk b1 b_pos b_type b_len b_links c_body]. fold h. rewrite <- LP.
    assert (EF : f1 = (f ++ pad) ++ (h ++ c_body c) ++ c_tail c).
    { unfold f1. rewrite <- !app_assoc. reflexivity. }
    rewrite EF. apply holds_end. }
  assert (HF : forall i, (i < length f)%nat -> nth_error f1 i = nth_error f i).
  { intros i Hi. unfold f1. rewrite <- app_assoc. apply nth_error_app1. auto. }
  assert (L1 : (length f <= length f1)%nat) by (unfold f1; rewrite !app_length; lia).
  assert (LC : link b1 0 = 0) by exact CN.
  exists f1, c1. split; [reflexivity|]. split; [unfold like, c1, b1; cbn; auto|]. split; [exact LC|].
  assert (SG1 : seg f1 lo (link p li) w hi 0).
  { destruct w as [|q w'].
    - exact SG.
    - apply (seg_frame _ f); auto. intros i Hi. apply HF.
      pose proof (seg_range _ _ _ _ _ _ SG) as [_ R]. specialize (R ltac:(discriminate)). lia. }
  assert (PH1 : holds f1 (b_pos p) (header_bytes (b_type p) (b_len p) (b_links p))).
  { destruct PH as [H1 H2]. split; [lia|]. intros i Hi. rewrite HF by lia. auto. }
  destruct w as [|q qs _] using rev_ind.
  - (* first child: the parent's link *)
    cbn [rev]. destruct (update_link4_spec p li (N.of_nat pos) f1) as (f2 & U & SO & H2); auto.
    cbn [c1 c_blk b1 b_pos]. rewrite U. eexists f2, _, []. split; [split; reflexivity|].
    cbn [b_pos b_type b_len b_links link]. split; [auto|]. split; [auto|]. split; [auto|].
    assert (LK : link {| b_pos := b_pos p; b_type := b_type p; b_len := b_len p;
                 b_links := set_nth (b_links p) li (N.of_nat pos) |} li = N.of_nat pos).
    { unfold link. cbn [b_links]. rewrite link_set_nth by auto. rewrite Nat.eqb_refl. reflexivity. }
    rewrite LK. split; [reflexivity|]. split; [constructor|]. destruct SO as [SL SO]. split; [|lia].
    split; [lia|]. split; [|split; [|exact FU]].
    + unfold parent_ok. cbn [b_pos b_links b_type b_len]. rewrite set_nth_length. auto.
    + rewrite LK. exists (c_end c1). cbn [app seg]. split; [|split; [|split; [|split]]]; try reflexivity.
      * unfold c1, b1, c_blk, b_pos, pos. lia.
      * apply (stored_frame f1); auto; [lia|]. intros i Hi. apply SO. right.
        assert (b_pos (c_blk c1) = pos) by reflexivity. lia.
      * exact LC.
  - (* a later child: the link of the one before *)
    rewrite rev_app_distr. cbn [rev app].
    apply seg_app in SG1 as (m & x & SA & SB). cbn [seg] in SB. destruct SB as (QA & QB & QS & QE & QN).
    destruct QS as (Q1 & Q2 & Q3 & Q4). pose proof Q4 as Q4'. apply holds_app in Q4 as [Q4 Q5].
    destruct (update_link4_spec (c_blk q) 0 (N.of_nat pos) f1) as (f2 & U & SO & H2); auto.
    exists f2, p, (qs ++ [mkChild (mkB (b_pos (c_blk q)) (b_type (c_blk q)) (b_len (c_blk q))
                              (set_nth (b_links (c_blk q)) 0 (N.of_nat pos))) (c_body q) (c_tail q)]).
    split.
    { eexists. cbn [c1 c_blk b1 b_pos]. split; [exact U|]. split; auto. rewrite rev_involutive. reflexivity. }
    split; [auto|]. split; [auto|]. split; [auto|]. split.
    { unfold link. symmetry. apply set_nth_same. }
    split.
    { apply Forall2_app; [apply like_all_refl|]. constructor; [|constructor].
      unfold like. cbn [c_blk b_type b_links c_body c_tail]. rewrite set_nth_length. split; [auto|].
      split; [|auto]. destruct (b_links (c_blk q)); reflexivity. }
    destruct SO as [SL SO].
    assert (QEND : (c_end q <= length f)%nat).
    { pose proof (seg_range _ _ _ _ _ _ SG) as [_ R].
      specialize (R ltac:(intros X; apply app_eq_nil in X as [_ X]; discriminate X)). lia. }
    assert (QLO : (lo <= b_pos (c_blk q))%nat).
    { pose proof (seg_range _ _ _ _ _ _ SA) as [R _]. lia. }
    split; [|lia]. split; [lia|]. split; [|split; [|exact FU]].
    + split; [auto|]. split; [auto|]. split; [auto|].
      destruct PH1 as [PA PB]. rewrite header_bytes_length in *. split; [rewrite header_bytes_length; lia|].
      intros i Hi. rewrite header_bytes_length in Hi. rewrite SO by lia. apply PB. lia.
    + exists (c_end c1). rewrite <- app_assoc. apply seg_app. exists m, x. split.
      { apply (seg_frame _ f1); auto; [lia|]. intros i Hi. apply SO. lia. }
      cbn [app seg c_blk b_pos]. split; [auto|]. split; [auto|].
      assert (PQ : (c_end q <= pos)%nat) by (unfold pos; lia).
      split; [|split; [|split; [|split; [|split]]]].
      * split; [exact Q1|]. split; [cbn [c_blk b_links]; rewrite set_nth_length; exact Q2|].
        split; [cbn [c_blk b_links b_len c_body]; rewrite set_nth_length; exact Q3|].
        cbn [c_blk b_pos b_type b_len b_links c_body]. apply holds_app. split; auto.
        rewrite header_bytes_length, set_nth_length. rewrite header_bytes_length in Q5.
        destruct Q5 as [Q5 Q6]. split; [lia|]. intros i Hi. rewrite SO by lia. auto.
      * cbn [c1 c_blk b1 b_pos]. unfold c_end in *. cbn [c_blk b_pos b_links c_body].
        rewrite set_nth_length. exact PQ.
      * unfold link. cbn [b_links]. rewrite link_set_nth by auto. reflexivity.
      * apply (stored_frame f1); auto; [lia|]. intros i Hi. apply SO.
        assert (b_pos (c_blk c1) = pos) by reflexivity.
        assert (b_pos (c_blk q) + 24 + 8 * length (b_links (c_blk q)) <= c_end q)%nat by (unfold c_end; lia). lia.
      * reflexivity.
      * exact LC.
Qed.

(** Going over the stored children changes nothing. *)
Lemma rewrite_stored : forall w opt li p done u f, Forall (stored f) w ->
  (forall c r, w = c :: r -> done = [] -> (li < length (b_links p))%nat /\ link p li = N.of_nat (b_pos (c_blk c))) ->
  (forall d0 d c r, w = c :: r -> done = d0 ++ [d] ->
     (0 < length (b_links (c_blk d)))%nat /\ link (c_blk d) 0 = N.of_nat (b_pos (c_blk c))) ->
  (forall a c d r, w = a ++ c :: d :: r ->
     (0 < length (b_links (c_blk c)))%nat /\ link (c_blk c) 0 = N.of_nat (b_pos (c_blk d))) ->
  write_list opt li p done (w ++ u) f = write_list opt li p (done ++ w) u f.
Proof.
  induction w as [|c r IH]; intros opt li p done u f FS F0 F1 F2.
  - rewrite app_nil_r. reflexivity.
  - apply Forall_cons_iff in FS as [SC FS]. cbn [app write_list].
    assert (NXT : write_list opt li p (done ++ [c]) (r ++ u) f = write_list opt li p (done ++ c :: r) u f).
    { rewrite IH; auto.
      - f_equal. rewrite <- app_assoc. reflexivity.
      - intros c2 r2 _ X. apply app_eq_nil in X as [_ X]. discriminate X.
      - intros d0 d c2 r2 -> X. apply app_inj_tail in X as [-> <-]. apply (F2 [] c c2 r2). reflexivity.
      - intros a c2 d r2 ->. apply (F2 (c :: a) c2 d r2). reflexivity. }
    match goal with |- (if ?b then _ else _) = _ => destruct b end; [|exact NXT].
    destruct SC as (S1 & S2 & S3 & S4). unfold write_child.
    replace (0 <? b_pos (c_blk c))%nat with true by (symmetry; apply Nat.ltb_lt; auto).
    apply holds_app in S4 as [S4 S5]. rewrite header_bytes_length in S5.
    rewrite put_same by (replace (b_pos (c_blk c) + 24 + 8 * length (b_links (c_blk c)))%nat
      with (b_pos (c_blk c) + (24 + 8 * length (b_links (c_blk c))))%nat by lia; exact S5).
    cbn [bind]. destruct (rev done) as [|q qs] eqn:RD.
    + assert (done = []) as -> by (rewrite <- (rev_involutive done), RD; reflexivity).
      destruct (F0 c r eq_refl eq_refl) as [A B]. unfold update_link4.
      replace (length (b_links p) <=? li)%nat with false by (symmetry; apply Nat.leb_gt; auto).
      rewrite B, N.eqb_refl. cbn [bind]. exact NXT.
    + assert (DQ : done = rev qs ++ [q]) by (rewrite <- (rev_involutive done), RD; reflexivity).
      destruct (F1 (rev qs) q c r eq_refl DQ) as [A B]. unfold update_link4.
      replace (length (b_links (c_blk q)) <=? 0)%nat with false by (symmetry; apply Nat.leb_gt; auto).
      rewrite B, N.eqb_refl. cbn [bind]. rewrite <- NXT, DQ.
      f_equal. rewrite <- app_assoc. cbn [app]. destruct q; reflexivity.
Qed.

Lemma seg_pairs : forall w f lo l hi n, seg f lo l w hi n -> Forall (stored f) w /\
  (forall c r, w = c :: r -> l = N.of_nat (b_pos (c_blk c))) /\
  (forall a c d r, w = a ++ c :: d :: r ->
     (0 < length (b_links (c_blk c)))%nat /\ link (c_blk c) 0 = N.of_nat (b_pos (c_blk d))).
Proof.
  intros w f lo l hi n H. split; [|split].
  - revert lo l H. induction w as [|c r IH]; intros lo l H; constructor; cbn [seg] in H.
    + tauto.
    + destruct H as (_ & _ & _ & H). eapply IH; eauto.
  - intros c r ->. cbn [seg] in H. tauto.
  - intros a c d r ->. apply seg_app in H as (m & x & _ & H). cbn [seg] in H.
    destruct H as (_ & _ & S & _ & E & _). split; auto. destruct S as (_ & S & _). auto.
Qed.

(** Writing the new children. *)
Lemma write_new : forall u opt li p lo w f, list_ok f p li lo w u ->
  exists f' p' w', write_list opt li p w u f = Ok (f', p', w') /\
    Forall2 like w' (w ++ u) /\ list_ok f' p' li lo w' [] /\
    b_pos p' = b_pos p /\ b_type p' = b_type p /\ b_len p' = b_len p /\
    b_links p' = set_nth (b_links p) li (link p' li) /\ (length f <= length f')%nat.
Proof.
  induction u as [|c u IH]; intros opt li p lo w f H.
  - exists f, p, w. cbn [write_list]. rewrite app_nil_r. split; [auto|]. split; [apply like_all_refl|].
    split; [auto|]. split; [auto|]. split; [auto|]. split; [auto|]. split; [|lia].
    unfold link. symmetry. apply set_nth_same.
  - destruct (append_one _ _ _ _ _ _ _ H) as (f1 & c1 & WC & LK & LN & f2 & p2 & w2 & UP & B1 & B2 & B3 & B4 & LW & OK2 & LEN).
    destruct (IH opt li p2 lo (w2 ++ [c1]) f2 OK2) as (f' & p' & w' & E & LK' & OK' & D1 & D2 & D3 & D4 & D5).
    exists f', p', w'. split.
    + rewrite <- E. cbn [write_list].
      assert (CP : b_pos (c_blk c) = 0%nat).
      { destruct H as (_ & _ & _ & F). apply Forall_cons_iff in F. tauto. }
      rewrite CP. change (0 <? 0)%nat with false. cbn [negb orb]. rewrite WC. cbn [bind].
      destruct (rev w) as [|q qs].
      * destruct UP as [U ->]. rewrite U. reflexivity.
      * destruct UP as (qb & U & -> & ->). rewrite U. cbn [bind]. rewrite <- app_assoc. reflexivity.
    + split.
      { eapply like_all_trans; [exact LK'|].
        replace ((w2 ++ [c1]) ++ u) with (w2 ++ (c1 :: u)) by (rewrite <- app_assoc; reflexivity).
        apply Forall2_app; auto. constructor; auto. apply like_all_refl. }
      split; [auto|]. split; [congruence|]. split; [congruence|]. split; [congruence|]. split; [|lia].
      rewrite D4, B4. apply set_nth_twice.
Qed.

Lemma write_any : forall opt li p lo w u f, list_ok f p li lo w u ->
  exists f' p' w', write_list opt li p [] (w ++ u) f = Ok (f', p', w') /\
    Forall2 like w' (w ++ u) /\ list_ok f' p' li lo w' [] /\
    b_pos p' = b_pos p /\ b_type p' = b_type p /\ b_len p' = b_len p /\
    b_links p' = set_nth (b_links p) li (link p' li) /\ (length f <= length f')%nat.
Proof.
  intros opt li p lo w u f H. pose proof H as (LF & PO & (hi & SG) & FU).
  destruct (seg_pairs _ _ _ _ _ _ SG) as (A & B & C).
  rewrite rewrite_stored; auto.
  - cbn [app]. apply write_new. auto.
  - intros c r E _. split; [apply PO|]. rewrite (B c r E). auto.
  - intros d0 d c r _ X. destruct d0; discriminate X.
Qed.
