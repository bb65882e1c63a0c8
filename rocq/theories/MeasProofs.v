(** What the writers append does not depend on the bytes before it: a write in place before and after
    them gives the same file. *)
From Verif Require Import Base BlockModel BlockSpec BlockProofs BlockProofs2 BlockProofs3 BlockProofs4
  ConvModel CcModel MetaModel MetaSpec MetaProofs MetaCc MetaProofs3 MeasModel.
Local Open Scope N_scope.

(* ------------------------------------------------------------------ *)
(** ** Writes in place *)

Lemma put_app : forall f x p bs, (p + length bs <= length f)%nat -> put (f ++ x) p bs = put f p bs ++ x.
Proof.
  intros f x p bs L. rewrite !put_in by (rewrite ?app_length; lia).
  rewrite firstn_app, skipn_app. replace (p - length f)%nat with 0%nat by lia.
  replace (p + length bs - length f)%nat with 0%nat by lia. cbn [firstn skipn].
  rewrite app_nil_r, <- !app_assoc. reflexivity.
Qed.

Lemma put_mid : forall a b c b', length b' = length b -> put (a ++ b ++ c) (length a) b' = a ++ b' ++ c.
Proof.
  intros a b c b' L. rewrite put_in by (rewrite app_length; lia).
  rewrite firstn_app, firstn_all, Nat.sub_diag. cbn [firstn]. rewrite app_nil_r. f_equal. f_equal.
  rewrite skipn_app, skipn_all2 by lia. cbn [app]. rewrite L.
  replace (length a + length b - length a)%nat with (length b) by lia.
  rewrite skipn_app, skipn_all, Nat.sub_diag. reflexivity.
Qed.

Lemma put_comm : forall f p a q b, (p + length a <= length f)%nat -> (q + length b <= length f)%nat ->
  (p + length a <= q \/ q + length b <= p)%nat -> put (put f p a) q b = put (put f q b) p a.
Proof.
  intros f p a q b LA LB D.
  apply nth_error_ext_N; [rewrite !put_length; rewrite ?put_length; auto|].
  intros i _. rewrite !put_nth by (rewrite ?put_length; auto).
  destruct (Nat.leb_spec p i), (Nat.leb_spec q i), (Nat.ltb_spec i (p + length a)), (Nat.ltb_spec i (q + length b));
    cbn [andb]; auto; lia.
Qed.

(** Inside a file, and apart from an interval. *)
Definition within (n : nat) (ws : list (nat * list N)) : Prop :=
  Forall (fun w => (fst w + length (snd w) <= n)%nat) ws.
Definition apart (lo hi : nat) (ws : list (nat * list N)) : Prop :=
  Forall (fun w => (fst w + length (snd w) <= lo \/ hi <= fst w)%nat) ws.

Lemma puts_app : forall a b f, puts f (a ++ b) = puts (puts f a) b.
Proof. intros. unfold puts. apply fold_left_app. Qed.

Lemma puts_cons : forall p bs r f, puts f ((p, bs) :: r) = puts (put f p bs) r.
Proof. reflexivity. Qed.

Lemma puts_length : forall ws f, within (length f) ws -> length (puts f ws) = length f.
Proof.
  induction ws as [|[p bs] r IH]; intros f W; [reflexivity|]. inversion W as [|? ? A B]; subst. cbn [fst snd] in A.
  rewrite puts_cons, IH by (rewrite put_length; auto). apply put_length. auto.
Qed.

Lemma puts_ext : forall ws f x, within (length f) ws -> puts (f ++ x) ws = puts f ws ++ x.
Proof.
  induction ws as [|[p bs] r IH]; intros f x W; [reflexivity|]. inversion W as [|? ? A B]; subst. cbn [fst snd] in A.
  rewrite !puts_cons, put_app by auto. apply IH. rewrite put_length; auto.
Qed.

Lemma puts_put : forall ws f q b, within (length f) ws -> (q + length b <= length f)%nat ->
  apart q (q + length b) ws -> puts (put f q b) ws = put (puts f ws) q b.
Proof.
  induction ws as [|[p bs] r IH]; intros f q b W L A; [reflexivity|].
  inversion W as [|? ? W1 W2]; subst. inversion A as [|? ? A1 A2]; subst. cbn [fst snd] in *.
  rewrite !puts_cons, put_comm by (auto; lia). apply IH; rewrite ?put_length; auto.
Qed.

Lemma within_le : forall n m ws, (n <= m)%nat -> within n ws -> within m ws.
Proof. intros n m ws L. apply Forall_impl. intros w. lia. Qed.

Lemma within_apart : forall n q e ws, (n <= q)%nat -> within n ws -> apart q e ws.
Proof. intros n q e ws L. apply Forall_impl. intros w. lia. Qed.

Lemma ok_pair : forall {A B} (a a' : A) (b b' : B), Ok (a, b) = Ok (a', b') -> a = a' /\ b = b'.
Proof. intros A B a a' b b' E. inversion E. auto. Qed.

(* ------------------------------------------------------------------ *)
(** ** Writers that keep what is there *)

Definition after {A} (ws : list (nat * list N)) (r : res (file * A)) : res (file * A) :=
  bind r (fun '(f, a) => Ok (puts f ws, a)).

Definition keeps {A} (wr : file -> res (file * A)) : Prop := forall f, (0 < length f)%nat ->
  (forall f' a, wr f = Ok (f', a) -> (length f <= length f')%nat) /\
  forall ws, within (length f) ws -> wr (puts f ws) = after ws (wr f).

(** The same for a block, which begins after what is there. *)
Definition keeps_block (wr : file -> res (file * nat)) : Prop := keeps wr /\
  forall f f' p, (0 < length f)%nat -> wr f = Ok (f', p) -> (length f <= p /\ p + 32 <= length f')%nat.

Lemma keeps_ret : forall {A} (a : A), keeps (fun f => Ok (f, a)).
Proof.
  intros A a f _. split; [intros f' b E; inversion E; subst; lia|]. intros ws _. reflexivity.
Qed.

Lemma keeps_none : forall {A} (e : res (file * A)), (forall x, e <> Ok x) -> keeps (fun _ => e).
Proof.
  intros A e H f _. split; [intros f' a E; destruct (H _ E)|]. intros ws _.
  destruct e as [x| |]; [destruct (H x); auto| |]; reflexivity.
Qed.

Lemma keeps_bind : forall {A B} (w1 : file -> res (file * A)) (w2 : A -> file -> res (file * B)),
  keeps w1 -> (forall a, keeps (w2 a)) -> keeps (fun f => bind (w1 f) (fun p => let '(f, a) := p in w2 a f)).
Proof.
  intros A B w1 w2 K1 K2 f NE. destruct (K1 f NE) as [G1 C1]. split.
  - intros f' b E. destruct (w1 f) as [[f1 a]| |] eqn:E1; try discriminate. cbn [bind] in E.
    specialize (G1 f1 a eq_refl). destruct (K2 a f1 ltac:(lia)) as [G2 _]. specialize (G2 _ _ E). lia.
  - intros ws W. rewrite (C1 ws W). destruct (w1 f) as [[f1 a]| |]; try reflexivity. unfold after at 1. cbn [bind].
    specialize (G1 f1 a eq_refl). destruct (K2 a f1 ltac:(lia)) as [_ C2]. apply C2.
    eapply within_le; [exact G1|exact W].
Qed.

Lemma keeps_block_bind : forall {A} (w1 : file -> res (file * A)) (w2 : A -> file -> res (file * nat)),
  keeps w1 -> (forall a, keeps_block (w2 a)) -> keeps_block (fun f => bind (w1 f) (fun p => let '(f, a) := p in w2 a f)).
Proof.
  intros A w1 w2 K1 K2. split; [apply keeps_bind; auto; intros a; apply K2|].
  intros f f' p NE E. destruct (K1 f NE) as [G1 _]. destruct (w1 f) as [[f1 a]| |] eqn:E1; try discriminate.
  cbn [bind] in E. specialize (G1 f1 a eq_refl). destruct (K2 a) as [_ P]. specialize (P f1 f' p ltac:(lia) E). lia.
Qed.

Lemma keeps_write : forall ty len links body, keeps (write_block4 ty len links body).
Proof.
  intros ty len links body f NE. rewrite write_block4_spec by auto. split.
  - intros f' a E. apply ok_pair in E. destruct E as [<- _]. rewrite app_length. lia.
  - intros ws W. rewrite write_block4_spec by (rewrite puts_length; auto).
    rewrite puts_length by auto. unfold after. cbn [bind]. rewrite puts_ext by auto. reflexivity.
Qed.

Lemma keeps_last : forall ty len links body, links <> [] ->
  keeps_block (fun f => bind (write_block4 ty len links body f) (fun p => let '(f, b) := p in Ok (f, b_pos b))).
Proof.
  intros ty len links body NE. split.
  - apply (keeps_bind (write_block4 ty len links body) (fun b f => Ok (f, b_pos b))); [apply keeps_write|].
    intros b. apply keeps_ret.
  - intros f f' p NF E. rewrite write_block4_spec in E by auto. cbn [bind b_pos] in E.
    apply ok_pair in E. destruct E as [<- <-]. rewrite !app_length, repeat_length, header_bytes_length.
    destruct links as [|l ls]; [congruence|]. cbn [length]. lia.
Qed.

Lemma chain_keeps : forall {T} (wr : T -> file -> res (file * nat)) xs, Forall (fun x => keeps_block (wr x)) xs ->
  keeps (write_chain wr None xs) /\
  forall q f ws, (0 < length f)%nat -> (q + 32 <= length f)%nat -> within (length f) ws -> apart (q + 24) (q + 32) ws ->
    (forall f' a, write_chain wr (Some q) xs f = Ok (f', a) -> (length f <= length f')%nat) /\
    write_chain wr (Some q) xs (puts f ws) = after ws (write_chain wr (Some q) xs f).
Proof.
  intros T wr xs F. induction xs as [|x r IH]; cbn [write_chain].
  { split; [apply keeps_ret|]. intros q f ws NE LQ W A. split; [intros f' a E; inversion E; subst; lia|reflexivity]. }
  inversion F as [|? ? [K P] FR]; subst. specialize (IH FR). destruct IH as [_ IH]. split.
  - intros f NE. destruct (K f NE) as [G C]. split.
    + intros f' a E. destruct (wr x f) as [[f1 pos]| |] eqn:E1; try discriminate. cbn [bind] in E.
      specialize (G f1 pos eq_refl). specialize (P f f1 pos NE E1).
      destruct (write_chain wr (Some pos) r f1) as [[f2 z]| |] eqn:E2; try discriminate. cbn [bind] in E.
      apply ok_pair in E. destruct E as [<- _]. destruct (IH pos f1 [] ltac:(lia) ltac:(lia) ltac:(constructor) ltac:(constructor)) as [G2 _].
      specialize (G2 _ _ E2). lia.
    + intros ws W. rewrite (C ws W). destruct (wr x f) as [[f1 pos]| |] eqn:E1; try reflexivity.
      unfold after at 1. cbn [bind]. specialize (G f1 pos eq_refl). specialize (P f f1 pos NE E1).
      destruct (IH pos f1 ws ltac:(lia) ltac:(lia)) as [_ C2].
      { eapply within_le; [exact G|exact W]. }
      { apply (within_apart (length f)); [lia|exact W]. }
      rewrite C2. destruct (write_chain wr (Some pos) r f1) as [[f2 z]| |]; reflexivity.
  - intros q f ws NE LQ W A. destruct (K f NE) as [G C].
    assert (LP : forall f1 l, (length f <= length f1)%nat -> length (put f1 (q + 24) (le_bytes 8 l)) = length f1).
    { intros f1 l L1. apply put_length. rewrite le_bytes_length. lia. }
    split.
    + intros f' a E. destruct (wr x f) as [[f1 pos]| |] eqn:E1; try discriminate. cbn [bind] in E.
      specialize (G f1 pos eq_refl). specialize (P f f1 pos NE E1).
      match type of E with context [write_chain wr (Some pos) r ?y] => set (fq := y) in * end.
      assert (LF : length fq = length f1) by (apply LP; lia).
      destruct (write_chain wr (Some pos) r fq) as [[f2 z]| |] eqn:E2; try discriminate. cbn [bind] in E.
      apply ok_pair in E. destruct E as [<- _]. destruct (IH pos fq [] ltac:(lia) ltac:(lia) ltac:(constructor) ltac:(constructor)) as [G2 _].
      specialize (G2 _ _ E2). lia.
    + rewrite (C ws W). destruct (wr x f) as [[f1 pos]| |] eqn:E1; try reflexivity.
      unfold after at 1. cbn [bind]. specialize (G f1 pos eq_refl). specialize (P f f1 pos NE E1).
      rewrite <- puts_put.
      2: { eapply within_le; [exact G|exact W]. }
      2: { rewrite le_bytes_length. lia. }
      2: { rewrite le_bytes_length. replace (q + 24 + 8)%nat with (q + 32)%nat by lia. exact A. }
      specialize (LP f1 (N.of_nat pos) G).
      set (fq := put f1 (q + 24) (le_bytes 8 (N.of_nat pos))) in *.
      destruct (IH pos fq ws ltac:(lia) ltac:(lia)) as [_ C2].
      { eapply within_le; [|exact W]. lia. }
      { apply (within_apart (length f)); [lia|exact W]. }
      rewrite C2. destruct (write_chain wr (Some pos) r fq) as [[f2 z]| |]; reflexivity.
Qed.

(* ------------------------------------------------------------------ *)
(** ** The writers of MetaModel.v *)

Lemma keeps_tx4 : forall t, keeps (fun f => bind (write_tx4 t f) (fun p => let '(f, b) := p in Ok (f, N.of_nat (b_pos b)))).
Proof.
  intros t. unfold write_tx4. cbv zeta.
  match goal with |- context [if ?c then ty_md else ty_tx] => generalize (if c then ty_md else ty_tx) end. intros ty.
  apply (keeps_bind (write_block4 ty 0 [] (t ++ [0])) (fun b f => Ok (f, N.of_nat (b_pos b)))); [apply keeps_write|].
  intros b. apply keeps_ret.
Qed.

Lemma keeps_tx : forall t, keeps (write_tx t).
Proof. intros [|c t]; [apply keeps_ret|apply keeps_tx4]. Qed.

Lemma keeps_md : forall m, keeps (write_md m).
Proof. intros [t|]; [apply keeps_tx4|apply keeps_ret]. Qed.

Lemma keeps_si : forall s, keeps_block (write_si s).
Proof.
  intros s. unfold write_si.
  apply keeps_block_bind; [apply keeps_tx|]. intros l0. apply keeps_block_bind; [apply keeps_tx|]. intros l1.
  apply keeps_block_bind; [apply keeps_md|]. intros l2. apply keeps_last. discriminate.
Qed.

Lemma keeps_si_opt : forall s, keeps (write_si_opt s).
Proof.
  intros [s|]; [|apply keeps_ret].
  apply (keeps_bind (write_si s) (fun p f => Ok (f, N.of_nat p))); [apply keeps_si|]. intros p. apply keeps_ret.
Qed.

Lemma keeps_placed : forall wr, placed wr -> keeps wr.
Proof.
  intros wr PL f NE. destruct (PL f NE) as (x & p & E & _ & H). rewrite E. split.
  - intros f' a Q. apply ok_pair in Q. destruct Q as [<- _]. rewrite app_length. lia.
  - intros ws W. rewrite H by (apply puts_length; auto). unfold after. cbn [bind]. rewrite puts_ext by auto. reflexivity.
Qed.

Lemma keeps_cc_opt : forall c, keeps (write_cc_opt c).
Proof.
  intros [c|]; [|apply keeps_ret].
  apply (keeps_bind (write_conv c) (fun p f => Ok (f, N.of_nat p))); [apply keeps_placed, placed_conv|].
  intros p. apply keeps_ret.
Qed.

Lemma fill_links_length : forall vs links i ls, fill_links links i vs = Ok ls -> length ls = length links.
Proof.
  induction vs as [|v r IH]; intros links i ls E; cbn [fill_links] in E; [inversion E; auto|].
  destruct (length links <=? i)%nat; [discriminate|]. rewrite (IH _ _ _ E). clear. revert i.
  induction links as [|x l IH]; intros [|i]; cbn [set_nth length]; auto.
Qed.

Lemma keeps_ca : forall a, keeps_block (write_ca a).
Proof.
  intros a. unfold write_ca.
  destruct (fill_links (repeat 0 (ca_nof_links a)) 1 (ca_link_values a)) as [links| |] eqn:E; cbn [bind].
  - apply keeps_last. intros ->. apply fill_links_length in E. rewrite repeat_length in E.
    unfold ca_nof_links in E. cbn [length] in E. lia.
  - split; [apply keeps_none; discriminate|]. discriminate.
  - split; [apply keeps_none; discriminate|]. discriminate.
Qed.

Lemma keeps_cn : forall c, keeps_block (write_cn c).
Proof.
  induction c as [h cx IH] using cn_ind'. cbn [write_cn].
  apply keeps_block_bind.
  { apply chain_keeps. apply Forall_forall. intros [a|c] I; [apply keeps_ca|apply IH; auto]. }
  intros l1. apply keeps_block_bind; [apply keeps_tx|]. intros l2.
  apply keeps_block_bind; [apply keeps_si_opt|]. intros l3. apply keeps_block_bind; [apply keeps_cc_opt|]. intros l4.
  apply keeps_block_bind; [apply keeps_md|]. intros l6. apply keeps_block_bind; [apply keeps_md|]. intros l7.
  destruct (N.to_nat (w16 (N.of_nat (length (n_attach h)))) <? length (n_attach h))%nat.
  { split; [apply keeps_none; discriminate|]. discriminate. }
  destruct (n_defx h) as [[x y] z]. apply keeps_last. discriminate.
Qed.

Lemma keeps_cg : forall g, keeps_block (write_cg g).
Proof.
  intros g. unfold write_cg. apply keeps_block_bind.
  { apply chain_keeps. apply Forall_forall. intros c _. apply keeps_cn. }
  intros l1. apply keeps_block_bind; [apply keeps_tx|]. intros l2.
  apply keeps_block_bind; [apply keeps_si_opt|]. intros l3. apply keeps_block_bind; [apply keeps_md|]. intros l5.
  apply keeps_last. discriminate.
Qed.

Lemma keeps_dg : forall d, keeps_block (write_dg d).
Proof.
  intros d. unfold write_dg. apply keeps_block_bind.
  { apply chain_keeps. apply Forall_forall. intros c _. apply keeps_cg. }
  intros l1. apply keeps_block_bind; [apply keeps_md|]. intros l3. apply keeps_last. discriminate.
Qed.

Lemma keeps_at : forall a, keeps_block (write_at a).
Proof.
  intros a. unfold write_at. apply keeps_block_bind; [apply keeps_tx|]. intros l1.
  apply keeps_block_bind; [apply keeps_tx|]. intros l2. apply keeps_block_bind; [apply keeps_md|]. intros l3.
  apply keeps_last. discriminate.
Qed.

Lemma keeps_ev : forall e, keeps_block (write_ev e).
Proof.
  intros e. unfold write_ev.
  match goal with |- context [if ?c then UB else _] => destruct c end.
  { split; [apply keeps_none; discriminate|]. discriminate. }
  apply keeps_block_bind; [apply keeps_tx|]. intros l1. apply keeps_block_bind; [apply keeps_tx|]. intros l2.
  apply keeps_block_bind; [apply keeps_md|]. intros l3. apply keeps_last. discriminate.
Qed.

Lemma keeps_ch : forall c, keeps_block (write_ch c).
Proof.
  induction c as [name type md els subs IH] using ch_ind'. cbn [write_ch].
  apply keeps_block_bind; [apply keeps_tx|]. intros l2. apply keeps_block_bind; [apply keeps_md|]. intros l3.
  apply keeps_block_bind.
  { apply chain_keeps. apply Forall_forall. intros c I. apply IH; auto. }
  intros l1. apply keeps_last. discriminate.
Qed.

(** Links of a block that is already in the file. *)
Lemma keeps_link : forall b i l f ws, (b_pos b + 24 + 8 * i + 8 <= length f)%nat -> within (length f) ws ->
  apart (b_pos b + 24 + 8 * i) (b_pos b + 24 + 8 * i + 8) ws ->
  update_link4 b i l (puts f ws) = after ws (update_link4 b i l f).
Proof.
  intros b i l f ws L W A. unfold update_link4.
  destruct (length (b_links b) <=? i)%nat; [reflexivity|]. destruct (l =? link b i); [reflexivity|].
  unfold after. cbn [bind]. destruct (0 <? b_pos b)%nat; [|reflexivity].
  rewrite puts_put; [reflexivity|exact W| |]; rewrite le_bytes_length; auto.
Qed.

Lemma link_length : forall b i l f f' b', (b_pos b + 24 + 8 * i + 8 <= length f)%nat ->
  update_link4 b i l f = Ok (f', b') -> length f' = length f /\ b_pos b' = b_pos b.
Proof.
  intros b i l f f' b' L E. unfold update_link4 in E.
  destruct (length (b_links b) <=? i)%nat; [discriminate|].
  destruct (l =? link b i); [apply ok_pair in E; destruct E as [<- <-]; auto|].
  apply ok_pair in E. destruct E as [<- <-]. split; [|reflexivity].
  destruct (0 <? b_pos b)%nat; [|reflexivity]. apply put_length. rewrite le_bytes_length. lia.
Qed.

Lemma keeps_fh : forall h, keeps_block (write_fh h).
Proof.
  intros h. unfold write_fh.
  set (bs := fields_bytes _).
  assert (K : forall f, (0 < length f)%nat -> exists f1 b, write_block4 ty_fh 56 [0; 0] bs f = Ok (f1, b) /\
     (length f <= b_pos b)%nat /\ (b_pos b + 40 <= length f1)%nat).
  { intros f NE. rewrite write_block4_spec by auto. eexists _, _. split; [reflexivity|]. cbn [b_pos].
    rewrite !app_length, repeat_length, header_bytes_length. cbn [length]. lia. }
  split.
  - intros f NE. destruct (K f NE) as (f1 & b & E & P1 & P2).
    destruct (keeps_write ty_fh 56 [0; 0] bs f NE) as [_ C]. rewrite E in *. cbn [bind].
    destruct (keeps_md (f_md h) f1 ltac:(lia)) as [G2 C2]. split.
    + intros f' a Q. destruct (write_md (f_md h) f1) as [[f2 l]| |]; try discriminate. cbn [bind] in Q.
      specialize (G2 f2 l eq_refl).
      destruct (update_link4 b 1 l f2) as [[f3 b3]| |] eqn:E3; try discriminate. cbn [bind] in Q.
      apply ok_pair in Q. destruct Q as [<- _]. apply link_length in E3; lia.
    + intros ws W. rewrite (C ws W). unfold after at 1. cbn [bind].
      rewrite C2 by (eapply within_le; [|exact W]; lia).
      destruct (write_md (f_md h) f1) as [[f2 l]| |]; try reflexivity. unfold after at 1. cbn [bind].
      specialize (G2 f2 l eq_refl). rewrite keeps_link; [|lia| |].
      * destruct (update_link4 b 1 l f2) as [[f3 b3]| |]; reflexivity.
      * eapply within_le; [|exact W]. lia.
      * apply (within_apart (length f)); [lia|exact W].
  - intros f f' p NE Q. destruct (K f NE) as (f1 & b & E & P1 & P2). rewrite E in Q. cbn [bind] in Q.
    destruct (keeps_md (f_md h) f1 ltac:(lia)) as [G2 _].
    destruct (write_md (f_md h) f1) as [[f2 l]| |]; try discriminate. cbn [bind] in Q.
    specialize (G2 f2 l eq_refl).
    destruct (update_link4 b 1 l f2) as [[f3 b3]| |] eqn:E3; try discriminate. cbn [bind] in Q.
    apply ok_pair in Q. destruct Q as [<- <-]. apply link_length in E3; lia.
Qed.
