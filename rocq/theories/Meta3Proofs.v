(** MDF3: what is written is read from the bytes that were appended: texts, links, lists and
    conversions. *)
From Verif Require Import Base BlockModel BlockSpec BlockProofs BlockProofs2 BlockProofs3 BlockProofs4.
From Verif Require Import ConvModel ConvProofs3 CcModel CcProofs Cc3Proofs MetaModel MetaProofs Meta3Model Meta3Spec.
Local Open Scope N_scope.

(** The same, except for the four bytes of link 0 of the block at [pos]. *)
Definition same_but3 (f g : file) (lo hi pos : nat) : Prop :=
  forall i, (lo <= i < hi)%nat -> (i < pos + 4 \/ pos + 8 <= i)%nat -> nth_error g i = nth_error f i.

Definition emits3 {A} (wr : file -> res (file * N)) (rd : file -> N -> res A) (a : A) : Prop :=
  forall f, (0 < length f)%nat -> exists f' l, wr f = Ok (f', l) /\ grows f f' /\
    (N.of_nat (length f') < 2 ^ 32 -> l < 2 ^ 32 /\
     forall g, same_in f' g (length f) (length f') -> rd g l = Ok a).

Definition writes3 {T} (wr : T -> file -> res (file * nat)) (rd : file -> nat -> res (T * N)) (x y : T) : Prop :=
  forall f, (0 < length f)%nat -> exists f' pos, wr x f = Ok (f', pos) /\ grows f f' /\
    (length f <= pos)%nat /\ (pos + 8 <= length f')%nat /\
    (N.of_nat (length f') < 2 ^ 32 ->
     holds f' (pos + 4) (le_bytes 4 0) /\
     forall g n, same_but3 f' g (length f) (length f') pos -> n < 2 ^ 32 ->
       holds g (pos + 4) (le_bytes 4 n) -> rd g pos = Ok (y, n)).

(* ------------------------------------------------------------------ *)
(** ** Links of a block *)

Lemma links_bytes_length : forall ls, length (concat (map (fun l => num_bytes false 4 (w32 l)) ls)) = (4 * length ls)%nat.
Proof.
  induction ls as [|l r IH]; [reflexivity|]. cbn [map concat length]. rewrite app_length, num_bytes_length, IH. lia.
Qed.

Lemma header3_at : forall ty size a x b, header3_bytes false ty size (a ++ x :: b) =
  (str_bytes 2 ty ++ num_bytes false 2 size ++ concat (map (fun l => num_bytes false 4 (w32 l)) a))
  ++ le_bytes 4 (w32 x) ++ concat (map (fun l => num_bytes false 4 (w32 l)) b).
Proof.
  intros. unfold header3_bytes. rewrite map_app, concat_app. cbn [map concat].
  rewrite <- !app_assoc. reflexivity.
Qed.

Lemma put_mid : forall a x b y, length y = length x -> put (a ++ x ++ b) (length a) y = a ++ y ++ b.
Proof.
  intros a x b y L. rewrite put_in by (rewrite app_length; lia).
  rewrite firstn_app, firstn_all, Nat.sub_diag. cbn [firstn]. rewrite app_nil_r. f_equal. f_equal.
  rewrite skipn_app, (skipn_all2 a) by lia. replace (length a + length y - length a)%nat with (length y) by lia.
  rewrite L, skipn_app, skipn_all2, Nat.sub_diag by lia. reflexivity.
Qed.

Lemma set3_at : forall f ty size a x b r v,
  set3 (f ++ header3_bytes false ty size (a ++ x :: b) ++ r) (length f) (length a) v =
  f ++ header3_bytes false ty size (a ++ v :: b) ++ r.
Proof.
  intros. unfold set3. rewrite !header3_at.
  set (h := str_bytes 2 ty ++ num_bytes false 2 size ++ concat (map (fun l => num_bytes false 4 (w32 l)) a)).
  assert (LH : length (f ++ h) = (length f + 4 + 4 * length a)%nat).
  { unfold h. rewrite !app_length, str_bytes_length, num_bytes_length, links_bytes_length. lia. }
  rewrite <- !app_assoc. rewrite (app_assoc f h), (app_assoc f h). rewrite <- LH. apply put_mid.
  rewrite !le_bytes_length. reflexivity.
Qed.

Lemma link3_at : forall f ty size a b r v,
  link3 (f ++ header3_bytes false ty size (a ++ 0 :: b) ++ r) (length f) (length a) v =
  f ++ header3_bytes false ty size (a ++ v :: b) ++ r.
Proof.
  intros. unfold link3. destruct (N.eqb_spec v 0) as [->|]; [reflexivity|]. apply set3_at.
Qed.

(** The read header and the fields of a block in the file. *)
Lemma block3_read : forall g pos ty size ls body, type_ok 2 ty -> ty <> [35; 35] ->
  holds g pos (header3_bytes false ty size ls ++ body) -> size < 2 ^ 16 ->
  Forall (fun l => l < 2 ^ 32) ls ->
  read_header3 false (length ls) g pos = Ok (mkB pos ty size ls, (pos + (4 + 4 * length ls))%nat) /\
  holds g (pos + (4 + 4 * length ls)) body.
Proof.
  intros g pos ty size ls body T NT H S F. apply holds_app in H as [H1 H2].
  rewrite header3_length in H2. split; auto. apply read_header3_at; auto.
Qed.

(** A block with link 0 replaced is the block with the other link. *)
Lemma block3_hole : forall f g pos lo hi ty size m n ls body,
  holds f pos (header3_bytes false ty size (m :: ls) ++ body) -> same_but3 f g lo hi pos ->
  (lo <= pos)%nat -> (pos + (8 + 4 * length ls + length body) <= hi)%nat -> n < 2 ^ 32 ->
  holds g (pos + 4) (le_bytes 4 n) ->
  holds g pos (header3_bytes false ty size (n :: ls) ++ body).
Proof.
  intros f g pos lo hi ty size m n ls body H S L HI NB HN.
  pose proof (fun x => header3_at ty size [] x ls) as E. cbn [app map concat] in E. rewrite app_nil_r in E.
  set (a := str_bytes 2 ty ++ num_bytes false 2 size) in *.
  set (b := concat (map (fun l => num_bytes false 4 (w32 l)) ls)) in *.
  assert (LA : length a = 4%nat) by (unfold a; rewrite app_length, str_bytes_length, num_bytes_length; reflexivity).
  assert (LB : length b = (4 * length ls)%nat) by apply links_bytes_length.
  rewrite E in *. rewrite <- !app_assoc in *.
  apply holds_app in H as [H1 H]. apply holds_app in H as [_ H]. rewrite le_bytes_length, LA in H.
  assert (NA : a <> []) by (intros X; apply (f_equal (@length N)) in X; rewrite LA in X; discriminate).
  apply holds_app. split.
  - destruct H1 as [_ H1]. apply holds_len; auto. intros i Hi. rewrite S by lia. auto.
  - rewrite LA. apply holds_app. rewrite le_bytes_length.
    split; [unfold w32; rewrite N.mod_small by exact NB; exact HN|].
    destruct (b ++ body) as [|y r] eqn:EB.
    + destruct HN as [HN _]. rewrite le_bytes_length in HN. split; [cbn [length]; lia|]. intros i Hi. cbn in Hi. lia.
    + rewrite <- EB in *. destruct H as [_ H]. apply holds_len; [rewrite EB; discriminate|].
      rewrite app_length in H |- *. intros i Hi. rewrite S by lia. rewrite H by auto. reflexivity.
Qed.

(* ------------------------------------------------------------------ *)
(** ** Texts *)

Lemma tx3_type : type_ok 2 [84; 88].
Proof. split; [reflexivity|]. split; [|split; reflexivity]. intros X; cbn in X; decompose [or] X; auto; discriminate. Qed.

Lemma tx3_written : forall s f, N.of_nat (length s) <= 65530 ->
  write_tx3 false s f = (f ++ header3_bytes false [84; 88] (N.of_nat (4 + length s + 1)) [] ++ s ++ [0], length f).
Proof.
  intros s f L. unfold write_tx3, write_header3. cbn [b_type b_len b_links b_pos].
  rewrite put_end. rewrite <- app_length, put_end, <- app_assoc. unfold w16. rewrite N.mod_small by lia. reflexivity.
Qed.

Lemma tx3_at : forall g pos s, N.of_nat (length s) <= 65530 -> plain_text s ->
  holds g pos (header3_bytes false [84; 88] (N.of_nat (4 + length s + 1)) [] ++ s ++ [0]) ->
  tx3_text false g pos = Ok s.
Proof.
  intros g pos s L P H.
  destruct (block3_read g pos [84; 88] (N.of_nat (4 + length s + 1)) [] (s ++ [0]) tx3_type ltac:(discriminate) H ltac:(lia)
    ltac:(constructor)) as [RH HB].
  cbn [length] in RH, HB. unfold tx3_text. rewrite RH. cbn [bind b_len].
  assert (W2 : w64 (N.of_nat (4 + length s + 1) + (2 ^ 64 - 4)) = N.of_nat (length s + 1)).
  { clear -L. unfold w64. replace (N.of_nat (4 + length s + 1) + (2 ^ 64 - 4))
      with (N.of_nat (length s + 1) + 1 * 2 ^ 64) by lia.
    rewrite N.mod_add by lia. apply N.mod_small. lia. }
  rewrite W2, Nat2N.id. unfold read_str. cbn [fst].
  apply read_chars_cut in HB. rewrite app_length in HB. cbn [length] in HB. rewrite HB, cut_app_zero.
  rewrite cut_id by apply P. rewrite !(trim_id s P). reflexivity.
Qed.

Lemma holds_tail : forall f x, holds (f ++ x) (length f) x.
Proof. intros f x. pose proof (holds_end f x []) as H. rewrite app_nil_r in H. exact H. Qed.

Lemma app_not_nil : forall (a b : list N), (0 < length a)%nat -> a ++ b <> [].
Proof. intros [|x a] b H; [cbn in H; lia|discriminate]. Qed.

Lemma header3_app_ne : forall ty size ls r, header3_bytes false ty size ls ++ r <> [].
Proof. intros. apply app_not_nil. rewrite header3_length. lia. Qed.

Lemma tx3_emit : forall s f, text3_ok s -> (0 < length f)%nat ->
  exists f', write_tx3 false s f = (f', length f) /\ grows f f' /\ (length f + 4 <= length f')%nat /\
    forall g, same_in f' g (length f) (length f') -> tx3_text false g (length f) = Ok s.
Proof.
  intros s f [P L] NE. rewrite tx3_written by exact L. eexists. split; [reflexivity|].
  split; [eexists; reflexivity|]. split; [rewrite !app_length, header3_length; lia|].
  intros g S. apply tx3_at; auto. eapply same_in_holds; [exact S|apply holds_tail|lia| |apply header3_app_ne].
  rewrite !app_length. lia.
Qed.

Lemma emits_text3 : forall t, text3_ok t -> emits3 (fun f => Ok (write_text3 t f)) read_text3 t.
Proof.
  intros t P f NE. destruct t as [|c t].
  - exists f, 0. split; [reflexivity|]. split; [apply grows_refl|]. intros _. split; reflexivity.
  - destruct (tx3_emit (c :: t) f P NE) as (f' & E & G & L1 & R).
    exists f', (N.of_nat (length f)). unfold write_text3. rewrite E. split; auto. split; auto.
    intros B. split; [lia|]. intros g S. unfold read_text3.
    replace (0 <? N.of_nat (length f)) with true by (symmetry; apply N.ltb_lt; lia).
    rewrite Nat2N.id. apply R. exact S.
Qed.

(* ------------------------------------------------------------------ *)
(** ** Lists of blocks *)

Section ChainProofs.
Context {T : Type} (wr : T -> file -> res (file * nat)) (rd : file -> nat -> res (T * N)).

(** Written whatever the size. *)
Lemma chain3_shape : forall xs ys, Forall2 (writes3 wr rd) xs ys -> forall f q, (0 < length f)%nat ->
  (q + 8 <= length f)%nat ->
  exists f' l, write_chain3 wr (Some q) xs f = Ok (f', l) /\ (length f <= length f')%nat /\
    same_but3 f f' 0 (length f) q.
Proof.
  intros xs ys F. induction F as [|x y xs ys W F' IH]; intros f q NE L.
  - exists f, 0. split; [reflexivity|]. split; [lia|]. intros i _ _. reflexivity.
  - destruct (W f NE) as (f1 & pos & E & G & P1 & P2 & _).
    pose proof (grows_length _ _ G) as LG.
    assert (PL : (q + 4 + 4 * 0 + length (le_bytes 4 (w32 (N.of_nat pos))) <= length f1)%nat) by (rewrite le_bytes_length; lia).
    set (f2 := set3 f1 q 0 (N.of_nat pos)).
    assert (LF2 : length f2 = length f1) by (apply put_length; auto).
    pose proof (put_same_outside f1 (q + 4 + 4 * 0) (le_bytes 4 (w32 (N.of_nat pos))) PL) as [_ SO].
    rewrite le_bytes_length in SO. change (put f1 (q + 4 + 4 * 0) (le_bytes 4 (w32 (N.of_nat pos)))) with f2 in SO.
    destruct (IH f2 pos ltac:(lia) ltac:(lia)) as (f' & l & E' & L' & SB).
    exists f', (N.of_nat pos). cbn [write_chain3]. rewrite E. cbn [bind]. fold f2. rewrite E'. cbn [bind].
    split; auto. split; [lia|]. intros i Hi D. rewrite SB by lia. rewrite SO by lia.
    apply (grows_same f f1 0 G). lia.
Qed.

(** From a block already written at [q] (region [lo, hi)) on. *)
Lemma chain3_rest : forall xs ys, Forall2 (writes3 wr rd) xs ys -> forall f q lo hi x0 f' l,
  (lo <= q)%nat -> (q + 8 <= hi)%nat -> (hi <= length f)%nat -> holds f (q + 4) (le_bytes 4 0) ->
  write_chain3 wr (Some q) xs f = Ok (f', l) ->
  N.of_nat (length f') < 2 ^ 32 ->
  (forall g n, same_but3 f g lo hi q -> n < 2 ^ 32 -> holds g (q + 4) (le_bytes 4 n) -> rd g q = Ok (x0, n)) ->
  forall g, same_in f' g lo (length f') ->
  forall fuel, (S (length xs) <= fuel)%nat -> (0 < q)%nat ->
    read_chain3 rd fuel g (N.of_nat q) = Ok (x0 :: ys).
Proof.
  intros xs ys F. induction F as [|x y xs ys W F' IH]; intros f q lo hi x0 f' l L1 L2 L3 HZ EW B R g S fuel LF Q.
  - cbn [write_chain3] in EW. assert (f' = f) as -> by congruence. clear EW.
    cbn [length] in LF. destruct fuel as [|k]; [lia|]. cbn [read_chain3].
    replace (0 <? N.of_nat q) with true by (symmetry; apply N.ltb_lt; lia). rewrite Nat2N.id, (R g 0).
    + cbn [bind]. destruct k; reflexivity.
    + intros i Hi _. apply S. lia.
    + reflexivity.
    + eapply same_in_holds; [exact S|exact HZ|lia|rewrite le_bytes_length; lia|].
      intros X. apply (f_equal (@length N)) in X. rewrite le_bytes_length in X. discriminate.
  - destruct (W f ltac:(lia)) as (f1 & pos & E & G & P1 & P2 & R1).
    pose proof (grows_length _ _ G) as LG.
    set (f2 := set3 f1 q 0 (N.of_nat pos)) in *.
    assert (PL : (q + 4 + 4 * 0 + length (le_bytes 4 (w32 (N.of_nat pos))) <= length f1)%nat) by (rewrite le_bytes_length; lia).
    assert (LF2 : length f2 = length f1) by (apply put_length; auto).
    pose proof (put_same_outside f1 (q + 4 + 4 * 0) (le_bytes 4 (w32 (N.of_nat pos))) PL) as [_ SO].
    rewrite le_bytes_length in SO. change (put f1 (q + 4 + 4 * 0) (le_bytes 4 (w32 (N.of_nat pos)))) with f2 in SO.
    pose proof (holds_put f1 (q + 4 + 4 * 0) (le_bytes 4 (w32 (N.of_nat pos))) PL) as HQ.
    change (put f1 (q + 4 + 4 * 0) (le_bytes 4 (w32 (N.of_nat pos)))) with f2 in HQ.
    replace (q + 4 + 4 * 0)%nat with (q + 4)%nat in * by lia.
    destruct (chain3_shape xs ys F' f2 pos ltac:(lia) ltac:(lia)) as (f'' & l' & E' & L' & SB).
    cbn [write_chain3] in EW. rewrite E in EW. cbn [bind] in EW. fold f2 in EW. rewrite E' in EW. cbn [bind] in EW.
    assert (f' = f'') as -> by congruence.
    assert (B1 : N.of_nat (length f1) < 2 ^ 32) by lia.
    assert (W4 : w32 (N.of_nat pos) = N.of_nat pos) by (unfold w32; apply N.mod_small; lia). rewrite W4 in HQ.
    destruct (R1 B1) as [Z1 RD1].
    assert (HZ2 : holds f2 (pos + 4) (le_bytes 4 0)).
    { eapply holds_frame; [split; [exact LF2|exact SO]|exact Z1|rewrite le_bytes_length; lia]. }
    destruct fuel as [|k]; [lia|]. cbn [read_chain3].
    replace (0 <? N.of_nat q) with true by (symmetry; apply N.ltb_lt; lia). rewrite Nat2N.id.
    assert (SBg : same_but3 f g lo hi q).
    { intros i Hi D. rewrite S by lia. rewrite SB by lia. rewrite SO by lia. apply (grows_same f f1 0 G). lia. }
    rewrite (R g (N.of_nat pos) SBg ltac:(lia)).
    + cbn [bind].
      rewrite (IH f2 pos (length f) (length f1) y f'' l' P1 P2 ltac:(lia) HZ2 E' B); [reflexivity| | |cbn [length] in LF; lia|lia].
      * intros g' n S' Hn Hg. apply RD1; auto. intros i Hi D. rewrite S' by lia. apply SO. lia.
      * intros i Hi. apply S. lia.
    + destruct HQ as [_ HQ]. apply holds_len.
      { intros X. apply (f_equal (@length N)) in X. rewrite le_bytes_length in X. discriminate. }
      intros i Hi. pose proof Hi as Hi'. rewrite le_bytes_length in Hi'. rewrite S by lia. rewrite SB by lia. auto.
Qed.

Lemma emits_chain3 : forall fuel xs ys, Forall2 (writes3 wr rd) xs ys -> (length xs <= fuel)%nat ->
  emits3 (write_chain3 wr None xs) (fun g l => read_chain3 rd fuel g l) ys.
Proof.
  intros fuel xs ys F LF f NE. destruct F as [|x y xs ys W F'].
  - exists f, 0. split; [reflexivity|]. split; [apply grows_refl|]. intros _. split; [reflexivity|].
    intros g _. destruct fuel; reflexivity.
  - destruct (W f NE) as (f1 & pos & E & G & P1 & P2 & R1).
    pose proof (grows_length _ _ G) as LG.
    destruct (chain3_shape xs ys F' f1 pos ltac:(lia) P2) as (f' & l & E' & L' & SB).
    exists f', (N.of_nat pos). cbn [write_chain3]. rewrite E. cbn [bind]. rewrite E'. cbn [bind].
    split; auto. split.
    { destruct G as [z ->]. exists (skipn (length f) f').
      rewrite <- (firstn_skipn (length f) f') at 1. f_equal.
      apply nth_error_ext_N.
      - rewrite firstn_length. lia.
      - intros i Hi. rewrite firstn_length in Hi. rewrite nth_error_firstn' by lia.
        rewrite SB by lia. rewrite nth_error_app1 by lia. reflexivity. }
    intros B. split; [lia|]. intros g S.
    destruct (R1 ltac:(lia)) as [Z1 RD1].
    apply (chain3_rest xs ys F' f1 pos (length f) (length f1) y f' l); auto; try lia.
Qed.
End ChainProofs.

(* ------------------------------------------------------------------ *)
(** ** Conversions *)

Definition fixed3 (c : ccx) : list N :=
  le_bytes 2 (bool_num (x_valid c)) ++ le_bytes 8 (x_min c) ++ le_bytes 8 (x_max c)
  ++ str_bytes 20 (x_unit c) ++ le_bytes 2 (k_type (x_conv c)).

Lemma fixed3_length : forall c, length (fixed3 c) = 40%nat.
Proof. intros. unfold fixed3. rewrite !app_length, !le_bytes_length, str_bytes_length. reflexivity. Qed.

Definition ccx_size (k : cc3) (tail : list N) : N :=
  N.of_nat (44 + length tail) - (if k_type k =? 10 then N.of_nat (length (k_formula k)) else 0).

Definition cc3_type_ok : type_ok 2 ty_cc3.
Proof. split; [reflexivity|]. split; [|split; reflexivity]. intros Y; cbn in Y; decompose [or] Y; auto; discriminate. Qed.

Lemma bool_num_small : forall b, bool_num b < 2 ^ 16.
Proof. intros []; reflexivity. Qed.

Lemma bool_num_back : forall b, negb (bool_num b =? 0) = b.
Proof. intros []; reflexivity. Qed.

(** The text blocks of a range table are empty. *)
Lemma range_texts3 : forall l f f' ls, (0 < length f)%nat ->
  write_range_texts false l f = (f', ls) ->
  grows f f' /\ length ls = length l /\
  (N.of_nat (length f') < 2 ^ 32 -> Forall (fun k => k < 2 ^ 32 /\
     forall g, same_in f' g (length f) (length f') ->
       (if 0 <? k then tx3_text false g (N.to_nat k) else Ok []) = Ok []) ls).
Proof.
  induction l as [|[[lo hi] t] r IH]; intros f f' ls NE E.
  - cbn [write_range_texts] in E. assert (f' = f) as -> by congruence. assert (ls = []) as -> by congruence.
    split; [apply grows_refl|]. split; [reflexivity|]. constructor.
  - cbn [write_range_texts] in E. destruct t as [|a t'].
    + destruct (write_range_texts false r f) as [f1 l1] eqn:E1.
      assert (f' = f1) as -> by congruence. assert (ls = 0 :: l1) as -> by congruence.
      destruct (IH _ _ _ NE E1) as (X & L & R). split; [exact X|]. split; [cbn [length]; lia|].
      intros B. constructor; [split; reflexivity|auto].
    + destruct (tx3_emit [] f) as (f1 & W & G & L4 & RT).
      { split; [|cbn; lia]. split; [intros []|congruence]. }
      { exact NE. }
      rewrite W in E. destruct (write_range_texts false r f1) as [f2 l2] eqn:E2.
      assert (f' = f2) as -> by congruence.
      assert (ls = w32 (N.of_nat (length f)) :: l2) as -> by congruence. clear E.
      pose proof (grows_length _ _ G) as LG.
      destruct (IH f1 f2 l2 ltac:(lia) E2) as (G2 & L & R).
      pose proof (grows_length _ _ G2) as LG2.
      split; [eapply grows_trans; eauto|]. split; [cbn [length]; lia|].
      intros B. assert (PB : N.of_nat (length f) < 2 ^ 32) by lia.
      constructor.
      * unfold w32. rewrite N.mod_small by exact PB. split; [exact PB|]. intros g S.
        rewrite Nat2N.id. replace (0 <? N.of_nat (length f)) with true by (symmetry; apply N.ltb_lt; lia).
        apply RT. intros i Hi. rewrite S by lia. apply (grows_same f1 f2 0 G2). lia.
      * specialize (R B). eapply Forall_impl; [|exact R]. cbv beta. intros k [K1 K2]. split; [exact K1|].
        intros g S. apply K2. intros i Hi. apply S. lia.
Qed.

(** Where the parts of a written block are. *)
Lemma ccx_placed : forall c f f1 links, (0 < length f)%nat -> k_type (x_conv c) < 65536 ->
  write_range_texts false (k_ranges (x_conv c)) f = (f1, links) -> grows f f1 ->
  let tail := cc3_tail (x_conv c) (x_pads c) links in
  (2 <= length tail)%nat ->
  (k_type (x_conv c) = 10 -> (length (k_formula (x_conv c)) + 2 <= length tail)%nat) ->
  ccx_size (x_conv c) tail < 65536 ->
  exists f', write_ccx c f = Ok (f', length f1) /\
    f' = f1 ++ header3_bytes false ty_cc3 (ccx_size (x_conv c) tail) [] ++ fixed3 c ++ tail.
Proof.
  intros c f f1 links NE T E G tail L2 LF SZ. unfold write_ccx. rewrite E. fold tail. fold (fixed3 c).
  pose proof (grows_length _ _ G) as LG.
  pose proof (sized3 ty_cc3 46 (ccx_size (x_conv c) tail) (fixed3 c ++ tail) f1 ltac:(lia) eq_refl) as S.
  destruct (write_header3 false (mkB 0 ty_cc3 46 []) f1) as [[f2 b] p].
  destruct S as (b' & U & P).
  replace (N.of_nat (4 + length (fixed3 c) + length tail) -
     (if k_type (x_conv c) =? 10 then N.of_nat (length (k_formula (x_conv c))) else 0))
    with (ccx_size (x_conv c) tail) by (unfold ccx_size; rewrite fixed3_length; reflexivity).
  rewrite U. cbn [bind]. rewrite P. eexists. split; [reflexivity|].
  assert (SE : (if 46 =? w32 (ccx_size (x_conv c) tail) then 46 else w16 (ccx_size (x_conv c) tail)) = ccx_size (x_conv c) tail).
  { unfold w32, w16. rewrite (N.mod_small _ (2 ^ 32)), (N.mod_small _ (2 ^ 16)).
    - destruct (N.eqb_spec 46 (ccx_size (x_conv c) tail)); auto.
    - exact SZ.
    - eapply N.lt_trans; [exact SZ|reflexivity]. }
  rewrite SE. reflexivity.
Qed.

Lemma ccx_read : forall g pos c tail k nof, k_type (x_conv c) < 65536 ->
  x_min c < 2 ^ 64 -> x_max c < 2 ^ 64 -> str3_ok 20 (x_unit c) ->
  (2 <= length tail)%nat ->
  (k_type (x_conv c) = 10 -> (length (k_formula (x_conv c)) + 2 <= length tail)%nat) ->
  ccx_size (x_conv c) tail < 65536 ->
  holds g pos (header3_bytes false ty_cc3 (ccx_size (x_conv c) tail) [] ++ fixed3 c ++ tail) ->
  read_num false 2 g (pos + 44) = Ok (nof, (pos + 46)%nat) ->
  read_values3 (k_type (x_conv c)) nof g (pos + 46) = Ok k ->
  read_ccx g pos = Ok (mkCcx (x_valid c) (x_min c) (x_max c) (x_unit c) k []).
Proof.
  intros g pos c tail k nof T M1 M2 [PU LU] L2 LF SZ H RN RV.
  set (size := ccx_size (x_conv c) tail) in *.
  assert (GE : 46 <= size).
  { unfold size, ccx_size. destruct (N.eqb_spec (k_type (x_conv c)) 10) as [E10|_].
    - specialize (LF E10). lia.
    - lia. }
  destruct (block3_read g pos ty_cc3 size [] (fixed3 c ++ tail) cc3_type_ok ltac:(discriminate) H SZ ltac:(constructor)) as [RH HB].
  cbn [length] in RH, HB. replace (4 + 4 * 0)%nat with 4%nat in * by reflexivity.
  unfold read_ccx. rewrite RH. cbn [bind b_len].
  apply holds_app in HB as [HF _]. unfold fixed3 in HF.
  rewrite !app_assoc in HF. rewrite <- (app_assoc (le_bytes 2 _)) in HF. rewrite <- !(app_assoc (_ ++ _ ++ _)) in HF.
  apply holds_app in HF as [A1 HF].
  pose proof (read_seq_at [(2%nat, bool_num (x_valid c)); (8%nat, x_min c); (8%nat, x_max c)] g (pos + 4)) as RS.
  assert (EF : fields_bytes [(2%nat, bool_num (x_valid c)); (8%nat, x_min c); (8%nat, x_max c)] =
     le_bytes 2 (bool_num (x_valid c)) ++ le_bytes 8 (x_min c) ++ le_bytes 8 (x_max c)).
  { unfold fields_bytes. cbn [map concat]. rewrite app_nil_r. reflexivity. }
  rewrite EF in RS. cbn [map fst snd list_sum fold_right] in RS. rewrite RS; [|exact A1|].
  2:{ repeat constructor; unfold field_ok; cbn [fst snd].
      - exact (bool_num_small _).
      - exact M1.
      - exact M2. }
  cbn [bind]. rewrite !app_length, !le_bytes_length in HF. rewrite <- app_assoc in HF || idtac.
  apply holds_app in HF as [A2 A3]. rewrite str_bytes_length in A3.
  replace (pos + 4 + (2 + (8 + (8 + 0))))%nat with (pos + 4 + (2 + (8 + 8)))%nat by lia.
  rewrite (read_str_written 20 (x_unit c) _ _ PU LU A2).
  rewrite (read_num_le _ _ 2 _ A3) by exact T. cbn [bind].
  replace (44 <? size) with true by (symmetry; apply N.ltb_lt; lia).
  replace (pos + 4 + (2 + (8 + 8)) + 20 + 2)%nat with (pos + 44)%nat by lia.
  rewrite RN. cbn [bind]. rewrite RV. cbn [bind nth]. rewrite bool_num_back. reflexivity.
Qed.
