(** Histories of lists, reading lists back, texts, MDF3 blocks. *)
From Verif Require Import Base BlockModel BlockSpec BlockProofs BlockProofs2.
Local Open Scope N_scope.

(* ------------------------------------------------------------------ *)
(** ** Histories of one list *)

Definition child_of (x : list N * list N * list N) (c : child) : Prop :=
  let '(ty, more, body) := x in
  b_type (c_blk c) = ty /\ tl (b_links (c_blk c)) = more /\
  length (b_links (c_blk c)) = S (length more) /\ c_body c = body.

Lemma like_child_of : forall x a b, like a b -> child_of x b -> child_of x a.
Proof.
  intros [[ty more] body] a b (A1 & A2 & A3 & A4 & A5) (B1 & B2 & B3 & B4).
  unfold child_of. rewrite A1, A2, A3, A4. auto.
Qed.

Lemma like_children : forall xs a b, Forall2 like a b -> Forall2 child_of xs b -> Forall2 child_of xs a.
Proof.
  intros xs a b H. revert xs. induction H; intros xs H2; inversion H2; subst; constructor; eauto.
  eapply like_child_of; eauto.
Qed.

Definition linv (li lo : nat) (p0 : blk) (xs : list (list N * list N * list N)) (s : lstate) : Prop :=
  let '(f, p, cs) := s in
  exists w u, cs = w ++ u /\ list_ok f p li lo w u /\ Forall2 child_of xs cs /\
    b_pos p = b_pos p0 /\ b_type p = b_type p0 /\ b_len p = b_len p0 /\
    b_links p = set_nth (b_links p0) li (link p li).

Lemma list_ok_grow : forall f g p li lo w u, list_ok f p li lo w u -> list_ok (f ++ g) p li lo w u.
Proof.
  intros f g p li lo w u (A & (B1 & B2 & B3 & B4) & (hi & C) & D).
  split; [rewrite app_length; lia|]. split; [|split; [|exact D]].
  - split; [auto|]. split; [auto|]. split; [auto|]. apply holds_ext. auto.
  - exists hi. destruct w as [|c w]; [exact C|].
    apply (seg_frame _ f); auto; [rewrite app_length; lia|].
    intros i Hi. apply nth_error_app1.
    pose proof (seg_range _ _ _ _ _ _ C) as [_ R]. specialize (R ltac:(discriminate)). lia.
Qed.

Lemma list_ok_add : forall f p li lo w u c, list_ok f p li lo w u ->
  b_pos (c_blk c) = 0%nat -> (0 < length (b_links (c_blk c)))%nat -> link (c_blk c) 0 = 0 ->
  list_ok f p li lo w (u ++ [c]).
Proof.
  intros f p li lo w u c (A & B & C & D) E F G. split; [auto|]. split; [auto|]. split; [auto|].
  apply Forall_app. split; auto.
Qed.

Definition xs_of (o : lop) : list (list N * list N * list N) := added [o].

Lemma added_app : forall a b, added (a ++ b) = added a ++ added b.
Proof. induction a as [|[]]; intros b; cbn [added app]; rewrite ?IHa; auto. Qed.

Lemma lstep_inv : forall li lo p0 xs o s, linv li lo p0 xs s ->
  exists s', lstep li o s = Ok s' /\ linv li lo p0 (xs ++ added [o]) s'.
Proof.
  intros li lo p0 xs o [[f p] cs] (w & u & E & OK & CH & P1 & P2 & P3 & P4).
  destruct o as [ty more body tail|opt|bs]; cbn [lstep added].
  - eexists. split; [reflexivity|]. exists w, (u ++ [new_child ty more body tail]).
    split; [subst cs; rewrite app_assoc; reflexivity|]. split; [apply list_ok_add; auto; cbn; lia|].
    split; [|auto]. apply Forall2_app; auto. constructor; [|constructor]. cbn. auto.
  - subst cs. destruct (write_any opt li p lo w u f OK) as (f' & p' & w' & W & LK & OK' & Q1 & Q2 & Q3 & Q4 & Q5).
    rewrite W. eexists. split; [reflexivity|]. rewrite app_nil_r. exists w', [].
    split; [rewrite app_nil_r; reflexivity|]. split; [auto|]. split; [eapply like_children; eauto|].
    split; [congruence|]. split; [congruence|]. split; [congruence|].
    rewrite Q4, P4. apply set_nth_twice.
  - eexists. split; [reflexivity|]. rewrite app_nil_r. exists w, u. split; [auto|].
    split; [apply list_ok_grow; auto|]. auto.
Qed.

Lemma lrun_inv : forall ops li lo p0 xs s, linv li lo p0 xs s ->
  exists s', lrun li ops s = Ok s' /\ linv li lo p0 (xs ++ added ops) s'.
Proof.
  induction ops as [|o ops IH]; intros li lo p0 xs s H; cbn [lrun].
  - exists s. rewrite app_nil_r. auto.
  - destruct (lstep_inv _ _ _ _ o _ H) as (s1 & E1 & H1). rewrite E1. cbn [bind].
    destruct (IH _ _ _ _ _ H1) as (s2 & E2 & H2). exists s2. split; auto.
    rewrite <- app_assoc in H2. change (o :: ops) with ([o] ++ ops). rewrite added_app. auto.
Qed.

Lemma lrun_app : forall a b li s, lrun li (a ++ b) s = bind (lrun li a s) (lrun li b).
Proof.
  induction a as [|o a IH]; intros b li s; cbn [app lrun bind]; auto.
  destruct (lstep li o s); cbn [bind]; auto.
Qed.

Lemma lrun_end : forall li lo p0 xs opt s, linv li lo p0 xs s ->
  exists f p cs, lstep li (LWrite opt) s = Ok (f, p, cs) /\ list_ok f p li lo cs [] /\
    Forall2 child_of xs cs /\
    b_pos p = b_pos p0 /\ b_type p = b_type p0 /\ b_len p = b_len p0 /\
    b_links p = set_nth (b_links p0) li (link p li).
Proof.
  intros li lo p0 xs opt [[f p] cs] (w & u & E & OK & CH & P1 & P2 & P3 & P4). subst cs.
  destruct (write_any opt li p lo w u f OK) as (f' & p' & w' & W & LK & OK' & Q1 & Q2 & Q3 & Q4 & Q5).
  exists f', p', w'. cbn [lstep]. split; [auto|]. split; [auto|]. split; [eapply like_children; eauto|].
  split; [congruence|]. split; [congruence|]. split; [congruence|]. rewrite Q4, P4. apply set_nth_twice.
Qed.

(* ------------------------------------------------------------------ *)
(** ** Reading a list back *)

Lemma read_list_S : forall k f l, read_list (S k) f l =
  if pos64 l then match read_header4 f (N.to_nat l) with
    | Ok (b, p) => match read_list k f (link b 0) with
        | Some (Ok bs) => Some (Ok ((b, p) :: bs)) | x => x end
    | Fail => Some Fail | UB => Some UB end else Some (Ok []).
Proof. reflexivity. Qed.

Definition x_ok (x : list N * list N * list N) : Prop :=
  let '(ty, more, _) := x in type_ok 4 ty /\ Forall (fun l => l < 2 ^ 64) more.

Lemma seg_link_bound : forall cs f lo l hi n, seg f lo l cs hi n -> N.of_nat (length f) < 2 ^ 63 ->
  n < 2 ^ 63 -> l < 2 ^ 63.
Proof.
  intros [|c cs] f lo l hi n H B Hn; cbn [seg] in H.
  - destruct H as [_ ->]. auto.
  - destruct H as (_ & -> & S & _). apply stored_range in S. unfold c_end in S. lia.
Qed.

Lemma read_list_seg : forall cs xs f lo l hi, seg f lo l cs hi 0 -> N.of_nat (length f) < 2 ^ 63 ->
  Forall2 child_of xs cs -> Forall x_ok xs ->
  exists bs, read_list (S (length cs)) f l = Some (Ok bs) /\ map (view f) bs = xs.
Proof.
  induction cs as [|c cs IH]; intros xs f lo l hi H B CH XO; cbn [seg] in H.
  - inversion CH; subst. exists []. destruct H as [_ ->]. split; reflexivity.
  - inversion CH as [|[[ty more] body] ? xs' ? C1 C2]; subst. apply Forall_cons_iff in XO as [[X1 X2] XO].
    destruct H as (H1 & -> & S & H2).
    destruct (IH xs' f _ _ _ H2 B C2 XO) as (bs & R & M).
    pose proof (stored_range _ _ S) as SR. destruct S as (S1 & S2 & S3 & S4).
    destruct C1 as (C1 & C3 & C4 & C5).
    assert (LB : link (c_blk c) 0 < 2 ^ 63) by (eapply seg_link_bound; eauto; lia).
    assert (LS : b_links (c_blk c) = link (c_blk c) 0 :: more).
    { rewrite <- C3. unfold link. destruct (b_links (c_blk c)); [cbn in S2; lia|reflexivity]. }
    unfold c_end in SR. apply holds_app in S4 as [S4 S5].
    pose proof (read_header4_at _ _ _ _ _ S4) as RH.
    rewrite C1 in RH. specialize (RH (type_plain _ _ X1)).
    assert (length ty = 4%nat) as LT by (destruct X1; auto).
    specialize (RH ltac:(lia)). specialize (RH ltac:(rewrite S3; lia)). specialize (RH ltac:(lia)).
    assert (F : Forall (fun l => l < 2 ^ 64) (b_links (c_blk c))).
    { rewrite LS. constructor; [lia|auto]. }
    specialize (RH F).
    exists ((mkB (b_pos (c_blk c)) ty (b_len (c_blk c)) (b_links (c_blk c)),
             (b_pos (c_blk c) + (24 + 8 * length (b_links (c_blk c))))%nat) :: bs).
    split.
    + cbn [length]. rewrite read_list_S.
      assert (PP : pos64 (N.of_nat (b_pos (c_blk c))) = true).
      { unfold pos64. apply andb_true_iff. split; apply N.ltb_lt; lia. }
      rewrite PP, Nat2N.id, RH.
      change (link {| b_pos := b_pos (c_blk c); b_type := ty; b_len := b_len (c_blk c);
                      b_links := b_links (c_blk c) |} 0) with (link (c_blk c) 0).
      rewrite R. reflexivity.
    + cbn [map]. f_equal; [|exact M]. unfold view. cbn [fst snd b_type b_links b_len].
      rewrite C3. f_equal. rewrite S3, Nat2N.id.
      replace (24 + 8 * length (b_links (c_blk c)) + length (c_body c) - 24 - 8 * length (b_links (c_blk c)))%nat
        with (length (c_body c)) by lia.
      rewrite header_bytes_length in S5. apply holds_slice in S5 as [S5 _]. rewrite S5. auto.
Qed.

Lemma add_ok_x : forall ops, Forall add_ok ops -> Forall x_ok (added ops).
Proof.
  induction ops as [|o ops IH]; intros F; [constructor|]. apply Forall_cons_iff in F as [F1 F2].
  destruct o; cbn [added]; auto.
Qed.

Lemma read_parent : forall f p li lo w u, list_ok f p li lo w u -> plain_text (b_type p) ->
  (length (b_type p) <= 4)%nat -> b_len p < 2 ^ 64 -> Forall (fun l => l < 2 ^ 64) (b_links p) ->
  N.of_nat (length f) < 2 ^ 63 ->
  read_header4 f (b_pos p) = Ok (p, (b_pos p + (24 + 8 * length (b_links p)))%nat).
Proof.
  intros f p li lo w u (A & (P1 & P2 & P3 & P4) & _) T LT B F L.
  rewrite (read_header4_at _ _ _ _ _ P4) by (auto; lia). destruct p. reflexivity.
Qed.

Lemma Forall_set_nth : forall (P : N -> Prop) l i v, Forall P l -> P v -> Forall P (set_nth l i v).
Proof.
  induction l as [|x l IH]; intros [|i] v F H; cbn [set_nth]; auto;
    apply Forall_cons_iff in F as [F1 F2]; constructor; auto.
Qed.

(** The whole round trip of a list. *)
Lemma list_round_trip : forall li ops opt f0 p0,
  (0 < b_pos p0)%nat -> (li < length (b_links p0))%nat -> link p0 li = 0 ->
  holds f0 (b_pos p0) (header_bytes (b_type p0) (b_len p0) (b_links p0)) ->
  type_ok 4 (b_type p0) -> b_len p0 < 2 ^ 64 -> Forall (fun l => l < 2 ^ 64) (b_links p0) ->
  Forall add_ok ops ->
  exists f p cs, lrun li (ops ++ [LWrite opt]) (f0, p0, []) = Ok (f, p, cs) /\
  (N.of_nat (length f) < 2 ^ 63 ->
   exists b pe bs,
     read_header4 f (b_pos p0) = Ok (b, pe) /\
     b_type b = b_type p0 /\ b_len b = b_len p0 /\
     (forall j, j <> li -> link b j = link p0 j) /\ length (b_links b) = length (b_links p0) /\
     read_list (S (length bs)) f (link b li) = Some (Ok bs) /\
     map (view f) bs = added ops).
Proof.
  intros li ops opt f0 p0 P L L0 H T BL FL AO.
  assert (I0 : linv li (length f0) p0 [] (f0, p0, [])).
  { exists [], []. split; [reflexivity|]. split.
    - split; [lia|]. split; [|split; [|constructor]].
      + split; [auto|]. split; [auto|]. split; [|auto].
        destruct H as [H _]. rewrite header_bytes_length in H. lia.
      + exists (length f0). cbn [seg]. auto.
    - split; [constructor|]. split; [auto|]. split; [auto|]. split; [auto|].
      unfold link. symmetry. apply set_nth_same. }
  destruct (lrun_inv ops _ _ _ _ _ I0) as (s & E & I1). cbn [app] in I1.
  destruct (lrun_end _ _ _ _ opt _ I1) as (f & p & cs & E2 & OK & CH & Q1 & Q2 & Q3 & Q4).
  exists f, p, cs. rewrite lrun_app, E. cbn [bind lrun]. rewrite E2. split; [reflexivity|].
  intros BF. pose proof OK as (_ & (P1 & P2 & P3 & P4) & (hi & SG) & _).
  destruct (read_list_seg _ _ _ _ _ _ SG BF CH (add_ok_x _ AO)) as (bs & R & M).
  assert (LB : link p li < 2 ^ 63) by (eapply seg_link_bound; eauto; lia).
  exists p, (b_pos p + (24 + 8 * length (b_links p)))%nat, bs.
  split.
  { rewrite <- Q1. apply (read_parent _ _ _ _ _ _ OK).
    - rewrite Q2. eapply type_plain; eauto.
    - rewrite Q2. destruct T. lia.
    - rewrite Q3. auto.
    - rewrite Q4. apply Forall_set_nth; auto. lia.
    - auto. }
  split; [auto|]. split; [auto|]. split.
  { intros j NJ. unfold link at 1. rewrite Q4, link_set_nth by auto.
    destruct (Nat.eqb_spec j li); [congruence|reflexivity]. }
  split; [rewrite Q4, set_nth_length; auto|].
  assert (length bs = length cs) as ->.
  { rewrite <- (map_length (view f) bs), M. clear -CH. induction CH; cbn [length]; auto. }
  split; auto.
Qed.

(* ------------------------------------------------------------------ *)
(** ** Following links: termination *)

Lemma read_header4_bound : forall f pos b p, read_header4 f pos = Ok (b, p) -> (pos + 24 <= length f)%nat.
Proof.
  intros f pos b p H. unfold read_header4, read_str in H. unfold read_num in H.
  repeat match type of H with
  | bind (if ?c then _ else _) _ = _ => destruct c eqn:?; cbn [bind] in H; [discriminate H|]
  end.
  repeat match goal with E : (_ <? _)%nat = false |- _ => apply Nat.ltb_ge in E; unfold slice in E;
     rewrite firstn_length, skipn_length in E end.
  lia.
Qed.

Lemma follow_spec : forall k f l a, follow f l k = Some a -> pos64 a = true /\ (N.to_nat a < length f)%nat.
Proof.
  induction k as [|k IH]; intros f l a H; cbn [follow] in H; destruct (pos64 l) eqn:P; try discriminate H;
    destruct (read_header4 f (N.to_nat l)) as [[b p]| |] eqn:R; try discriminate H.
  - injection H as <-. split; auto. apply read_header4_bound in R. lia.
  - eapply IH; eauto.
Qed.

Lemma follow_add : forall i f l a k, follow f l i = Some a -> follow f l (i + k) = follow f a k.
Proof.
  induction i as [|i IH]; intros f l a k H; cbn [follow] in H; destruct (pos64 l) eqn:P; try discriminate H;
    destruct (read_header4 f (N.to_nat l)) as [[b p]| |] eqn:R; try discriminate H.
  - injection H as ->. reflexivity.
  - cbn [Nat.add follow]. rewrite P, R. apply IH. auto.
Qed.

Lemma follow_prefix : forall k j f l a, follow f l k = Some a -> (j <= k)%nat -> exists b, follow f l j = Some b.
Proof.
  induction k as [|k IH]; intros j f l a H L.
  - replace j with 0%nat by lia. eauto.
  - cbn [follow] in H; destruct (pos64 l) eqn:P; try discriminate H;
    destruct (read_header4 f (N.to_nat l)) as [[b p]| |] eqn:R; try discriminate H.
    destruct j as [|j]; cbn [follow]; rewrite P, R; eauto. eapply IH; eauto. lia.
Qed.

Lemma read_list_follow : forall k f l, read_list (S k) f l = None <-> exists a, follow f l k = Some a.
Proof.
  induction k as [|k IH]; intros f l.
  - cbn [read_list follow]. destruct (pos64 l).
    + destruct (read_header4 f (N.to_nat l)) as [[b p]| |]; split; eauto; try discriminate;
        intros [a H]; discriminate H.
    + split; [discriminate|]. intros [a H]; discriminate H.
  - rewrite read_list_S.
    cbn [follow]. destruct (pos64 l); [|split; [discriminate|intros [a H]; discriminate H]].
    destruct (read_header4 f (N.to_nat l)) as [[b p]| |];
      try (split; [discriminate|intros [a H]; discriminate H]).
    rewrite <- IH. destruct (read_list (S k) f (link b 0)) as [[bs| |]|]; split; congruence.
Qed.

(** Distinct positions below a bound are at most that many. *)
Lemma pigeon : forall n (g : nat -> nat), (forall i, (i <= n)%nat -> (g i < n)%nat) ->
  exists i j, (i < j <= n)%nat /\ g i = g j.
Proof.
  intros n g H.
  assert (P : forall m, (exists i j, (i < j < m)%nat /\ g i = g j) \/ NoDup (map g (seq 0 m))).
  { induction m as [|m [D|D]].
    - right. constructor.
    - left. destruct D as (i & j & A & B). exists i, j. split; [lia|auto].
    - destruct (in_dec Nat.eq_dec (g m) (map g (seq 0 m))) as [E|E].
      + left. apply in_map_iff in E as (i & E & Hi). apply in_seq in Hi. exists i, m. split; [lia|auto].
      + right. rewrite seq_S, map_app. cbn [map Nat.add].
        apply (NoDup_Add (Add_app (g m) (map g (seq 0 m)) [])). rewrite app_nil_r. auto. }
  destruct (P (S n)) as [(i & j & A & B)|ND].
  - exists i, j. split; [lia|auto].
  - exfalso. assert (incl (map g (seq 0 (S n))) (seq 0 n)) as I1.
    { intros x Hx. apply in_map_iff in Hx as (i & <- & Hi). apply in_seq in Hi. apply in_seq.
      specialize (H i ltac:(lia)). lia. }
    apply NoDup_incl_length in I1; auto. rewrite map_length, !seq_length in I1. lia.
Qed.

Lemma cycle_forever : forall f a d n, (0 < d)%nat -> follow f a d = Some a -> follow f a (n * d) = Some a.
Proof.
  intros f a d n D H. induction n as [|n IH].
  - cbn [Nat.mul]. destruct (follow_prefix d 0 f a a H ltac:(lia)) as (b & E). rewrite E.
    cbn [follow] in E. destruct (pos64 a); try discriminate E.
    destruct (read_header4 f (N.to_nat a)) as [[? ?]| |]; try discriminate E. auto.
  - cbn [Nat.mul]. rewrite (follow_add d f a a); auto.
Qed.

Lemma list_ends_iff : forall f l,
  (exists fuel r, read_list fuel f l = Some r) <->
  (forall i j a, (i < j)%nat -> follow f l i = Some a -> follow f l j <> Some a).
Proof.
  intros f l. split.
  - intros (fuel & r & E) i j a L Hi Hj.
    destruct fuel as [|k]; [discriminate E|].
    assert (NF : ~ exists b, follow f l k = Some b).
    { rewrite <- read_list_follow. congruence. }
    assert (CY : follow f a (j - i) = Some a).
    { rewrite <- (follow_add i f l a) by auto. replace (i + (j - i))%nat with j by lia. auto. }
    pose proof (cycle_forever f a (j - i) (S k) ltac:(lia) CY) as CF.
    apply NF. apply (follow_prefix (i + S k * (j - i)) k f l a).
    + rewrite (follow_add i f l a); auto.
    + destruct (j - i)%nat eqn:E2; [lia|]. nia.
  - intros H. exists (S (length f)).
    destruct (read_list (S (length f)) f l) as [r|] eqn:E; [eauto|]. exfalso.
    apply read_list_follow in E as (a & E).
    destruct (pigeon (length f) (fun i => match follow f l i with Some x => N.to_nat x | None => 0%nat end))
      as (i & j & L & EQ).
    + intros i Hi. destruct (follow_prefix _ i _ _ _ E Hi) as (b & B). rewrite B.
      apply follow_spec in B. tauto.
    + destruct (follow_prefix _ i _ _ _ E ltac:(lia)) as (b & B).
      destruct (follow_prefix _ j _ _ _ E ltac:(lia)) as (c & C).
      rewrite B, C in EQ. apply N2Nat.inj in EQ. subst c. apply (H i j b); auto. lia.
Qed.

(** A list that is read to its end has no more blocks than the file has bytes. *)
Lemma list_length_bound : forall f l fuel bs, read_list fuel f l = Some (Ok bs) -> (length bs <= length f)%nat.
Proof.
  intros f l fuel bs E.
  assert (FL : forall fuel l bs, read_list fuel f l = Some (Ok bs) ->
     forall k, (k < length bs)%nat -> exists a, follow f l k = Some a).
  { clear. induction fuel as [|fuel IH]; intros l bs E k Hk; [discriminate E|]. cbn [read_list] in E.
    destruct (pos64 l) eqn:P.
    - destruct (read_header4 f (N.to_nat l)) as [[b p]| |] eqn:R; try discriminate E.
      destruct (read_list fuel f (link b 0)) as [[bs'| |]|] eqn:R2; try discriminate E.
      injection E as <-. destruct k as [|k]; cbn [follow]; rewrite P, R; eauto.
      eapply IH; eauto. cbn in Hk. lia.
    - injection E as <-. cbn in Hk. lia. }
  destruct (le_lt_dec (length bs) (length f)) as [|G]; auto. exfalso.
  assert (H : forall i j a, (i < j)%nat -> follow f l i = Some a -> follow f l j <> Some a).
  { apply list_ends_iff. eauto. }
  destruct (pigeon (length f) (fun i => match follow f l i with Some x => N.to_nat x | None => 0%nat end))
    as (i & j & L & EQ).
  - intros i Hi. destruct (FL _ _ _ E i ltac:(lia)) as (b & B). rewrite B. apply follow_spec in B. tauto.
  - destruct (FL _ _ _ E i ltac:(lia)) as (b & B). destruct (FL _ _ _ E j ltac:(lia)) as (c & C).
    rewrite B, C in EQ. apply N2Nat.inj in EQ. subst c. apply (H i j b); auto. lia.
Qed.
