(** What is written is read from the bytes that were appended: texts, numbers, blocks and lists. *)
From Verif Require Import Base BlockModel BlockSpec BlockProofs BlockProofs2 BlockProofs3 BlockProofs4
  CcModel MetaModel.
Local Open Scope N_scope.

(* ------------------------------------------------------------------ *)
(** ** Regions of a file *)

Definition same_in (f g : file) (lo hi : nat) : Prop :=
  forall i, (lo <= i < hi)%nat -> nth_error g i = nth_error f i.

(** The same, except for the eight bytes of link 0 of the block at [pos]. *)
Definition same_but (f g : file) (lo hi pos : nat) : Prop :=
  forall i, (lo <= i < hi)%nat -> (i < pos + 24 \/ pos + 32 <= i)%nat -> nth_error g i = nth_error f i.

Definition grows (f g : file) : Prop := exists x, g = f ++ x.

Lemma grows_refl : forall f, grows f f.
Proof. intros f. exists []. rewrite app_nil_r. auto. Qed.

Lemma grows_trans : forall a b c, grows a b -> grows b c -> grows a c.
Proof. intros a b c [x ->] [y ->]. exists (x ++ y). rewrite app_assoc. auto. Qed.

Lemma grows_length : forall f g, grows f g -> (length f <= length g)%nat.
Proof. intros f g [x ->]. rewrite app_length. lia. Qed.

Lemma grows_same : forall f g lo, grows f g -> same_in f g lo (length f).
Proof. intros f g lo [x ->] i H. rewrite nth_error_app1 by lia. auto. Qed.

Lemma same_in_trans : forall f g h lo hi, same_in f g lo hi -> same_in g h lo hi -> same_in f h lo hi.
Proof. intros f g h lo hi A B i H. rewrite B, A by auto. auto. Qed.

Lemma same_in_sub : forall f g lo hi lo' hi', same_in f g lo hi -> (lo <= lo')%nat -> (hi' <= hi)%nat ->
  same_in f g lo' hi'.
Proof. intros f g lo hi lo' hi' A L H i I. apply A. lia. Qed.

Lemma holds_len : forall f p bs, bs <> [] ->
  (forall i, (i < length bs)%nat -> nth_error f (p + i) = nth_error bs i) -> holds f p bs.
Proof.
  intros f p bs NE H. split; auto.
  assert (Q : nth_error f (p + (length bs - 1)) <> None).
  { rewrite H by (destruct bs; [congruence|cbn [length]; lia]). apply nth_error_Some.
    destruct bs; [congruence|cbn [length]; lia]. }
  apply nth_error_Some in Q. lia.
Qed.

Lemma same_in_holds : forall f g lo hi p bs, same_in f g lo hi -> holds f p bs -> (lo <= p)%nat ->
  (p + length bs <= hi)%nat -> bs <> [] -> holds g p bs.
Proof.
  intros f g lo hi p bs S [L H] A B NE. apply holds_len; auto. intros i Hi. rewrite S by lia. auto.
Qed.

(* ------------------------------------------------------------------ *)
(** ** Numbers *)

Definition field_ok (x : nat * N) : Prop := snd x < 256 ^ N.of_nat (fst x).

Lemma fields_bytes_cons : forall k v r, fields_bytes ((k, v) :: r) = le_bytes k v ++ fields_bytes r.
Proof. reflexivity. Qed.

Lemma fields_bytes_app : forall a b, fields_bytes (a ++ b) = fields_bytes a ++ fields_bytes b.
Proof. intros. unfold fields_bytes. rewrite map_app, concat_app. reflexivity. Qed.

Lemma fields_bytes_length : forall fs, length (fields_bytes fs) = list_sum (map fst fs).
Proof.
  induction fs as [|[k v] fs IH]; [reflexivity|]. rewrite fields_bytes_cons, app_length, le_bytes_length, IH.
  reflexivity.
Qed.

Lemma read_seq_at : forall fs f p, holds f p (fields_bytes fs) -> Forall field_ok fs ->
  read_seq (map fst fs) f p = Ok (map snd fs, (p + list_sum (map fst fs))%nat).
Proof.
  induction fs as [|[k v] fs IH]; intros f p H F.
  - cbn. rewrite Nat.add_0_r. reflexivity.
  - rewrite fields_bytes_cons in H. apply holds_app in H as [H1 H2]. inversion_clear F as [|? ? F1 F2].
    rewrite le_bytes_length in H2. cbn [map read_seq fst snd].
    rewrite (read_num_le f p k v H1) by exact F1. cbn [bind]. rewrite (IH _ _ H2 F2). cbn [bind].
    f_equal. f_equal. cbn [list_sum fold_right]. change (fold_right Nat.add 0%nat (map fst fs)) with (list_sum (map fst fs)). lia.
Qed.

(* ------------------------------------------------------------------ *)
(** ** One block *)

Lemma header_first : forall ty size ls, exists a b,
  (forall m, header_bytes ty size (m :: ls) = a ++ le_bytes 8 m ++ b) /\ length a = 24%nat.
Proof.
  intros ty size ls. exists (str_bytes 4 ty ++ repeat 0 4 ++ le_bytes 8 size ++ le_bytes 8 (N.of_nat (S (length ls)))),
    (concat (map (le_bytes 8) ls)).
  repeat split.
  - intros m. unfold header_bytes. cbn [map concat length]. rewrite <- !app_assoc. reflexivity.
  - rewrite !app_length, str_bytes_length, repeat_length, !le_bytes_length. reflexivity.
Qed.

(** A block with link 0 replaced is the block with the other link. *)
Lemma block_hole : forall f g pos lo hi ty size m n ls body,
  holds f pos (header_bytes ty size (m :: ls) ++ body) -> same_but f g lo hi pos ->
  (lo <= pos)%nat -> (pos + (32 + 8 * length ls + length body) <= hi)%nat ->
  holds g (pos + 24) (le_bytes 8 n) ->
  holds g pos (header_bytes ty size (n :: ls) ++ body).
Proof.
  intros f g pos lo hi ty size m n ls body H S L HI HN.
  destruct (header_first ty size ls) as (a & b & E & LA).
  assert (LB : length b = (8 * length ls)%nat).
  { pose proof (header_bytes_length ty size (0 :: ls)) as X. rewrite E, !app_length, le_bytes_length, LA in X.
    cbn [length] in X. lia. }
  rewrite E in *. rewrite <- !app_assoc in *.
  apply holds_app in H as [H1 H]. apply holds_app in H as [_ H]. rewrite le_bytes_length, LA in H.
  assert (NA : a <> []) by (intros ->; cbn in LA; lia).
  apply holds_app. split.
  - destruct H1 as [_ H1]. apply holds_len; auto. intros i Hi. rewrite S by lia. auto.
  - rewrite LA. apply holds_app. rewrite le_bytes_length. split; auto.
    destruct (b ++ body) as [|y r] eqn:EB.
    + destruct HN as [HN _]. rewrite le_bytes_length in HN. split; [cbn [length]; lia|]. intros i Hi. cbn in Hi. lia.
    + rewrite <- EB in *. destruct H as [_ H]. apply holds_len; [rewrite EB; discriminate|].
      rewrite app_length in H |- *. intros i Hi. rewrite S by lia. rewrite H by auto. reflexivity.
Qed.

(** The read header and the fields of a block in the file. *)
Lemma block_read : forall g pos ty size ls body, type_ok 4 ty ->
  holds g pos (header_bytes ty size ls ++ body) -> size < 2 ^ 64 -> N.of_nat (length ls) < 2 ^ 64 ->
  Forall (fun l => l < 2 ^ 64) ls ->
  read_header4 g pos = Ok (mkB pos ty size ls, (pos + (24 + 8 * length ls))%nat) /\
  holds g (pos + (24 + 8 * length ls)) body.
Proof.
  intros g pos ty size ls body T H S NL F. apply holds_app in H as [H1 H2].
  rewrite header_bytes_length in H2. split; auto. apply read_header4_at; auto.
  - eapply type_plain; eauto.
  - destruct T. lia.
Qed.

(** ** Values written in front of a block *)

(** [wr] appends something for which [rd], given the link, returns [a], in every file that has these
    bytes in this place. *)
Definition emits {A} (wr : file -> res (file * N)) (rd : file -> N -> res A) (a : A) : Prop :=
  forall f, (0 < length f)%nat -> exists f' l, wr f = Ok (f', l) /\ grows f f' /\
    (N.of_nat (length f') < 2 ^ 63 -> l < 2 ^ 63 /\
     forall g, same_in f' g (length f) (length f') -> rd g l = Ok a).

(** The same for blocks of lists: [rd] also returns link 0, which may change later. *)
Definition writes_as {T} (wr : T -> file -> res (file * nat)) (rd : file -> nat -> res (T * N)) (x y : T) : Prop :=
  forall f, (0 < length f)%nat -> exists f' pos, wr x f = Ok (f', pos) /\ grows f f' /\
    (length f <= pos)%nat /\ (pos + 32 <= length f')%nat /\
    (N.of_nat (length f') < 2 ^ 63 ->
     holds f' (pos + 24) (le_bytes 8 0) /\
     forall g n, same_but f' g (length f) (length f') pos -> n < 2 ^ 64 ->
       holds g (pos + 24) (le_bytes 8 n) -> rd g pos = Ok (y, n)).

Definition writes {T} (wr : T -> file -> res (file * nat)) (rd : file -> nat -> res (T * N)) (x : T) : Prop :=
  writes_as wr rd x x.

Lemma pos64_small : forall l, l < 2 ^ 63 -> pos64 l = (0 <? l).
Proof.
  intros l H. unfold pos64. rewrite (proj2 (N.ltb_lt l (2 ^ 63)) H). apply andb_true_r.
Qed.

Lemma pos64_pos : forall p, (0 < p)%nat -> N.of_nat p < 2 ^ 63 -> pos64 (N.of_nat p) = true.
Proof. intros p P H. rewrite pos64_small by auto. apply N.ltb_lt. lia. Qed.

Lemma tx4_at : forall g pos s ty, type_ok 4 ty -> plain_text s ->
  N.of_nat (25 + length s) < 2 ^ 64 ->
  holds g pos (header_bytes ty (N.of_nat (24 + (length s + 1))) [] ++ (s ++ [0])) ->
  read_tx4 g pos = Ok s.
Proof.
  intros g pos s ty T P B H.
  destruct (block_read g pos ty (N.of_nat (24 + (length s + 1))) [] (s ++ [0]) T H) as [RH HB];
    [lia|reflexivity|constructor|].
  cbn [length] in RH, HB. rewrite Nat.mul_0_r, Nat.add_0_r in RH, HB.
  unfold read_tx4. rewrite RH. cbn [bind b_len b_links length]. rewrite Nat.mul_0_r, Nat.add_0_r.
  assert (W : w64 (N.of_nat (24 + (length s + 1)) + (2 ^ 64 - N.of_nat 24)) = N.of_nat (length s + 1)).
  { clear -B. unfold w64. replace (N.of_nat (24 + (length s + 1)) + (2 ^ 64 - N.of_nat 24))
      with (N.of_nat (length s + 1) + 1 * 2 ^ 64) by lia.
    rewrite N.mod_add by lia. apply N.mod_small. lia. }
  rewrite W, Nat2N.id. f_equal. unfold read_str. cbn [fst].
  apply read_chars_cut in HB. rewrite app_length in HB. cbn [length] in HB. rewrite HB, cut_app_zero.
  rewrite cut_id by apply P. apply trim_id; auto.
Qed.

Lemma write_tx4_emit : forall s f, plain_text s -> (0 < length f)%nat ->
  exists f' b, write_tx4 s f = Ok (f', b) /\ grows f f' /\ (length f <= b_pos b)%nat /\
    (b_pos b + 24 <= length f')%nat /\
    (N.of_nat (length f') < 2 ^ 63 ->
     forall g, same_in f' g (length f) (length f') -> read_tx4 g (b_pos b) = Ok s).
Proof.
  intros s f P NE. unfold write_tx4.
  set (ty := if match s with 60 :: _ => true | _ => false end then ty_md else ty_tx).
  assert (T : type_ok 4 ty).
  { unfold ty. destruct (match s with 60 :: _ => true | _ => false end);
      (split; [reflexivity|]; split; [|split; reflexivity]); intros X; cbn in X;
      decompose [or] X; auto; discriminate. }
  rewrite (write_block4_spec ty 0 [] (s ++ [0]) f NE). cbn [b_pos].
  eexists _, _. split; [reflexivity|]. cbn [b_pos].
  set (pos := (length f + pad8 (length f))%nat).
  set (size := N.of_nat (24 + 8 * length [] + length (s ++ [0]))).
  set (blk := header_bytes ty size [] ++ s ++ [0]).
  assert (LB : length blk = (24 + (length s + 1))%nat).
  { unfold blk. rewrite !app_length, header_bytes_length. cbn [length]. lia. }
  assert (LF : length (f ++ repeat 0 (pad8 (length f)) ++ blk) = (pos + length blk)%nat).
  { rewrite !app_length, repeat_length. unfold pos. lia. }
  split; [eexists; reflexivity|]. split; [unfold pos; lia|]. split; [lia|].
  intros B g S.
  assert (H : holds (f ++ repeat 0 (pad8 (length f)) ++ blk) pos blk).
  { rewrite app_assoc. rewrite <- (app_nil_r blk) at 1.
    replace pos with (length (f ++ repeat 0 (pad8 (length f)))) by (rewrite app_length, repeat_length; auto).
    apply holds_end. }
  apply tx4_at with (ty := ty); auto.
  - lia.
  - replace (N.of_nat (24 + (length s + 1))) with size
      by (unfold size; rewrite app_length; cbn [length]; f_equal; lia).
    eapply same_in_holds; [exact S|exact H|unfold pos; lia|fold blk; lia|].
    intros X. apply (f_equal (@length N)) in X. fold blk in X. cbn [length] in X. lia.
Qed.

Lemma emits_tx : forall t, plain_text t -> emits (write_tx t) read_tx t.
Proof.
  intros t P f NE. destruct t as [|c t].
  - exists f, 0. split; [reflexivity|]. split; [apply grows_refl|]. intros _. split; [reflexivity|]. reflexivity.
  - destruct (write_tx4_emit (c :: t) f P NE) as (f' & b & E & G & L1 & L2 & R).
    exists f', (N.of_nat (b_pos b)). unfold write_tx. rewrite E. cbn [bind]. split; auto. split; auto.
    intros B. split; [lia|]. intros g S. unfold read_tx. rewrite pos64_pos by lia.
    unfold tx4_text. rewrite Nat2N.id, (R B g S). cbn [bind]. rewrite trim_id by exact P. reflexivity.
Qed.

Definition plain_opt (m : option (list N)) : Prop := match m with Some t => plain_text t | None => True end.

Lemma emits_md : forall m, plain_opt m -> emits (write_md m) read_md m.
Proof.
  intros [t|] P f NE.
  - destruct (write_tx4_emit t f P NE) as (f' & b & E & G & L1 & L2 & R).
    exists f', (N.of_nat (b_pos b)). unfold write_md. rewrite E. cbn [bind]. split; auto. split; auto.
    intros B. split; [lia|]. intros g S. unfold read_md. rewrite pos64_pos by lia.
    rewrite Nat2N.id, (R B g S). reflexivity.
  - exists f, 0. split; [reflexivity|]. split; [apply grows_refl|]. intros _. split; reflexivity.
Qed.

(* ------------------------------------------------------------------ *)
(** ** Lists of blocks *)

Lemma holds_out : forall f q bs p v, holds f p v -> (q + length bs <= length f)%nat ->
  (p + length v <= q \/ q + length bs <= p)%nat -> holds (put f q bs) p v.
Proof. intros f q bs p v H L D. eapply holds_frame; [apply put_same_outside; auto|exact H|lia]. Qed.

(** From a block already written at [q] (region [lo, hi)) on. *)
Lemma chain_rest : forall {T} (wr : T -> file -> res (file * nat)) (rd : file -> nat -> res (T * N)) xs ys,
  Forall2 (writes_as wr rd) xs ys -> forall f q lo hi x0,
  (lo <= q)%nat -> (q + 32 <= hi)%nat -> (hi <= length f)%nat -> holds f (q + 24) (le_bytes 8 0) ->
  exists f' l, write_chain wr (Some q) xs f = Ok (f', l) /\ (length f <= length f')%nat /\
    same_but f f' 0 (length f) q /\
    (N.of_nat (length f') < 2 ^ 63 ->
     (forall g n, same_but f g lo hi q -> n < 2 ^ 64 -> holds g (q + 24) (le_bytes 8 n) -> rd g q = Ok (x0, n)) ->
     forall g, same_in f' g lo (length f') ->
     forall fuel, (S (length xs) <= fuel)%nat -> (0 < q)%nat ->
       read_chain rd fuel g (N.of_nat q) = Ok (x0 :: ys)).
Proof.
  intros T wr rd xs ys F. induction F as [|x y xs ys W F' IH]; intros f q lo hi x0 L1 L2 L3 HZ.
  - exists f, 0. split; [reflexivity|]. split; [lia|]. split; [intros i _ _; reflexivity|].
    intros B R g S fuel LF Q. cbn [length] in LF. destruct fuel as [|k]; [lia|]. cbn [read_chain].
    rewrite pos64_pos by lia. rewrite Nat2N.id, (R g 0).
    + cbn [bind]. destruct k; reflexivity.
    + intros i Hi _. apply S. lia.
    + reflexivity.
    + eapply same_in_holds; [exact S|exact HZ|lia|rewrite le_bytes_length; lia|].
      intros X. apply (f_equal (@length N)) in X. rewrite le_bytes_length in X. discriminate.
  - destruct (W f ltac:(lia)) as (f1 & pos & E & G & P1 & P2 & R1).
    pose proof (grows_length _ _ G) as LG.
    set (f2 := put f1 (q + 24) (le_bytes 8 (N.of_nat pos))).
    assert (PL : (q + 24 + length (le_bytes 8 (N.of_nat pos)) <= length f1)%nat) by (rewrite le_bytes_length; lia).
    assert (LF2 : length f2 = length f1) by (apply put_length; auto).
    pose proof (put_same_outside f1 (q + 24) (le_bytes 8 (N.of_nat pos)) PL) as [_ SO].
    rewrite le_bytes_length in SO. fold f2 in SO.
    assert (HQ : holds f2 (q + 24) (le_bytes 8 (N.of_nat pos))) by (apply holds_put; auto).
    (* the zero link of the new block, also when the bound is not known *)
    destruct (N.lt_ge_cases (N.of_nat (length f1)) (2 ^ 63)) as [B1|B1].
    + destruct (R1 B1) as [Z1 RD1].
      assert (HZ2 : holds f2 (pos + 24) (le_bytes 8 0)).
      { apply holds_out; auto. rewrite !le_bytes_length. lia. }
      destruct (IH f2 pos (length f) (length f1) y P1 P2 ltac:(lia) HZ2) as (f' & l & E' & L' & SB & R').
      exists f', (N.of_nat pos). cbn [write_chain]. rewrite E. cbn [bind]. fold f2. rewrite E'. cbn [bind].
      split; auto. split; [lia|]. split.
      { intros i Hi D. rewrite SB by lia. rewrite SO by lia. apply (grows_same f f1 0 G). lia. }
      intros B R g S fuel LF Q. destruct fuel as [|k]; [lia|]. cbn [read_chain].
      rewrite pos64_pos by lia. rewrite Nat2N.id.
      assert (SBg : same_but f g lo hi q).
      { intros i Hi D. rewrite S by lia. rewrite SB by lia. rewrite SO by lia. apply (grows_same f f1 0 G). lia. }
      rewrite (R g (N.of_nat pos) SBg ltac:(lia)).
      * cbn [bind]. rewrite (R' B); [reflexivity| | |cbn [length] in LF; lia|lia].
        -- intros g' n S' Hn Hg. apply RD1; auto. intros i Hi D. rewrite S' by lia. apply SO. lia.
        -- intros i Hi. apply S. lia.
      * destruct HQ as [_ HQ]. apply holds_len.
        { intros X. apply (f_equal (@length N)) in X. rewrite le_bytes_length in X. discriminate. }
        intros i Hi. pose proof Hi as Hi'. rewrite le_bytes_length in Hi'. rewrite S by lia. rewrite SB by lia. auto.
    + (* too long: only the shape matters *)
      assert (X : forall xs ys f q, Forall2 (writes_as wr rd) xs ys -> (0 < length f)%nat -> (q + 32 <= length f)%nat ->
        exists f' l, write_chain wr (Some q) xs f = Ok (f', l) /\ (length f <= length f')%nat /\
          same_but f f' 0 (length f) q).
      { clear. intros xs ys f q F. revert f q. induction F as [|x y xs ys W F' IH]; intros f q NE L.
        - exists f, 0. split; [reflexivity|]. split; [lia|]. intros i _ _. reflexivity.
        - destruct (W f NE) as (f1 & pos & E & G & P1 & P2 & _).
          pose proof (grows_length _ _ G) as LG.
          assert (PL : (q + 24 + length (le_bytes 8 (N.of_nat pos)) <= length f1)%nat) by (rewrite le_bytes_length; lia).
          set (f2 := put f1 (q + 24) (le_bytes 8 (N.of_nat pos))).
          assert (LF2 : length f2 = length f1) by (apply put_length; auto).
          pose proof (put_same_outside f1 (q + 24) (le_bytes 8 (N.of_nat pos)) PL) as [_ SO].
          rewrite le_bytes_length in SO. fold f2 in SO.
          destruct (IH f2 pos ltac:(lia) ltac:(lia)) as (f' & l & E' & L' & SB).
          exists f', (N.of_nat pos). cbn [write_chain]. rewrite E. cbn [bind]. fold f2. rewrite E'. cbn [bind].
          split; auto. split; [lia|]. intros i Hi D. rewrite SB by lia. rewrite SO by lia.
          apply (grows_same f f1 0 G). lia. }
      destruct (X (x :: xs) (y :: ys) f q) as (f' & l & E' & L' & SB).
      { constructor; auto. }
      { lia. }
      { lia. }
      exists f', l. split; auto. split; auto. split; auto. intros B. exfalso.
      cbn [write_chain] in E'. rewrite E in E'. cbn [bind] in E'. fold f2 in E'.
      destruct (X xs ys f2 pos F' ltac:(lia) ltac:(lia)) as (f'' & l' & E'' & L'' & _). rewrite E'' in E'.
      cbn [bind] in E'. inversion E'; subst. lia.
Qed.

Lemma emits_chain_as : forall {T} (wr : T -> file -> res (file * nat)) (rd : file -> nat -> res (T * N)) fuel xs ys,
  Forall2 (writes_as wr rd) xs ys -> (length xs <= fuel)%nat ->
  emits (write_chain wr None xs) (fun g l => read_chain rd fuel g l) ys.
Proof.
  intros T wr rd fuel xs ys F LF f NE. destruct F as [|x y xs ys W F'].
  - exists f, 0. split; [reflexivity|]. split; [apply grows_refl|]. intros _. split; [reflexivity|].
    intros g _. destruct fuel; reflexivity.
  - destruct (W f NE) as (f1 & pos & E & G & P1 & P2 & R1).
    pose proof (grows_length _ _ G) as LG.
    destruct (N.lt_ge_cases (N.of_nat (length f1)) (2 ^ 63)) as [B1|B1].
    + destruct (R1 B1) as [Z1 RD1].
      destruct (chain_rest wr rd xs ys F' f1 pos (length f) (length f1) y P1 P2 ltac:(lia) Z1)
        as (f' & l & E' & L' & SB & R').
      exists f', (N.of_nat pos). cbn [write_chain]. rewrite E. cbn [bind]. rewrite E'. cbn [bind].
      split; auto. split.
      { destruct G as [z ->]. exists (skipn (length f) f').
        rewrite <- (firstn_skipn (length f) f') at 1. f_equal.
        apply nth_error_ext_N.
        - rewrite firstn_length. lia.
        - intros i Hi. rewrite firstn_length in Hi. rewrite nth_error_firstn' by lia.
          rewrite SB by lia. rewrite nth_error_app1 by lia. reflexivity. }
      intros B. split; [lia|]. intros g S. apply (R' B); [|exact S| |lia].
      * intros g' n S' Hn Hg. apply RD1; auto.
      * cbn [length] in LF. lia.
    + assert (X : exists f' l, write_chain wr (Some pos) xs f1 = Ok (f', l) /\ (length f1 <= length f')%nat /\
                    same_but f1 f' 0 (length f1) pos).
      { assert (NE1 : (0 < length f1)%nat) by lia. clear -F' P2 NE1.
        revert f1 pos P2 NE1. induction F' as [|x y xs ys W F' IH]; intros f1 pos P2 NE1.
        - exists f1, 0. split; [reflexivity|]. split; [lia|]. intros i _ _. reflexivity.
        - destruct (W f1 NE1) as (f2 & p2 & E & G & P1 & P3 & _).
          pose proof (grows_length _ _ G) as LG.
          assert (PL : (pos + 24 + length (le_bytes 8 (N.of_nat p2)) <= length f2)%nat) by (rewrite le_bytes_length; lia).
          set (f3 := put f2 (pos + 24) (le_bytes 8 (N.of_nat p2))).
          assert (LF2 : length f3 = length f2) by (apply put_length; auto).
          pose proof (put_same_outside f2 (pos + 24) (le_bytes 8 (N.of_nat p2)) PL) as [_ SO].
          rewrite le_bytes_length in SO. fold f3 in SO.
          destruct (IH f3 p2 ltac:(lia) ltac:(lia)) as (f' & l & E' & L' & SB).
          exists f', (N.of_nat p2). cbn [write_chain]. rewrite E. cbn [bind]. fold f3. rewrite E'. cbn [bind].
          split; auto. split; [lia|]. intros i Hi D. rewrite SB by lia. rewrite SO by lia.
          apply (grows_same f1 f2 0 G). lia. }
      destruct X as (f' & l & E' & L' & SB). exists f', (N.of_nat pos). cbn [write_chain]. rewrite E. cbn [bind].
      rewrite E'. cbn [bind]. split; auto. split; [|intros B; lia].
      destruct G as [z ->]. exists (skipn (length f) f').
      rewrite <- (firstn_skipn (length f) f') at 1. f_equal.
      apply nth_error_ext_N.
      * rewrite firstn_length. lia.
      * intros i Hi. rewrite firstn_length in Hi. rewrite nth_error_firstn' by lia.
        rewrite SB by lia. rewrite nth_error_app1 by lia. reflexivity.
Qed.

Lemma emits_chain : forall {T} (wr : T -> file -> res (file * nat)) (rd : file -> nat -> res (T * N)) fuel xs,
  Forall (writes wr rd) xs -> (length xs <= fuel)%nat ->
  emits (write_chain wr None xs) (fun g l => read_chain rd fuel g l) xs.
Proof.
  intros T wr rd fuel xs F LF. apply emits_chain_as; auto. clear LF.
  induction F; constructor; auto.
Qed.
