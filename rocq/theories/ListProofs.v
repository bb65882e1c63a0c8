(** Proofs about DL blocks and their chain. *)
From Verif Require Import Base BlockModel BlockSpec BlockProofs BlockProofs2 BlockProofs3
  DataModel DataSpec TransProofs DataProofs.
From Coq Require Import Lia.
Local Open Scope N_scope.

(* ------------------------------------------------------------------ *)
(** ** Frames *)

Definition agree (f f' : file) (lo hi : nat) : Prop :=
  (length f <= length f')%nat /\ forall i, (lo <= i < hi)%nat -> nth_error f' i = nth_error f i.

Lemma agree_holds : forall f f' lo hi p bs, agree f f' lo hi -> holds f p bs ->
  (lo <= p)%nat -> (p + length bs <= hi)%nat -> holds f' p bs.
Proof.
  intros f f' lo hi p bs [L A] [HL H] B E. split; [lia|]. intros i I. rewrite A by lia. auto.
Qed.

Lemma agree_sub : forall f f' lo hi lo' hi', agree f f' lo hi -> (lo <= lo')%nat -> (hi' <= hi)%nat ->
  agree f f' lo' hi'.
Proof. intros f f' lo hi lo' hi' [L A] B C. split; auto. intros. apply A. lia. Qed.

Lemma agree_app : forall f g lo hi, (hi <= length f)%nat -> agree f (f ++ g) lo hi.
Proof.
  intros. split; [rewrite app_length; lia|]. intros i I. apply nth_error_app1. lia.
Qed.

Lemma agree_same : forall f f' pos n lo hi, same_outside f f' pos n ->
  (hi <= pos \/ pos + n <= lo)%nat -> agree f f' lo hi.
Proof. intros f f' pos n lo hi [L A] D. split; [lia|]. intros. apply A. lia. Qed.

Lemma agree_trans : forall f g h lo hi, agree f g lo hi -> agree g h lo hi -> agree f h lo hi.
Proof.
  intros f g h lo hi [A B] [C D]. split; [lia|]. intros. rewrite D by auto. auto.
Qed.

(* ------------------------------------------------------------------ *)
(** ** Lists of links *)

Fixpoint set_seq (l : list N) (i : nat) (ps : list nat) : list N :=
  match ps with
  | [] => l
  | p :: r => set_seq (set_nth l i (N.of_nat p)) (S i) r
  end.

Lemma set_seq_length : forall ps l i, length (set_seq l i ps) = length l.
Proof. induction ps as [|p ps IH]; intros; cbn [set_seq]; auto. rewrite IH, set_nth_length. auto. Qed.

Lemma set_seq_nth : forall ps l i j, (i + length ps <= length l)%nat ->
  nth j (set_seq l i ps) 0 =
  if ((i <=? j) && (j <? i + length ps))%nat then N.of_nat (nth (j - i) ps 0%nat) else nth j l 0.
Proof.
  induction ps as [|p ps IH]; intros l i j L; cbn [set_seq length] in *.
  - destruct (Nat.leb_spec i j); destruct (Nat.ltb_spec j (i + 0)); cbn [andb]; auto. lia.
  - rewrite IH by (rewrite set_nth_length; lia). rewrite nth_set_nth by lia.
    destruct (Nat.leb_spec (S i) j); destruct (Nat.ltb_spec j (S i + length ps));
    destruct (Nat.leb_spec i j); destruct (Nat.ltb_spec j (i + S (length ps)));
    destruct (Nat.eqb_spec j i); cbn [andb]; try lia; auto.
    + replace (j - i)%nat with (S (j - S i)) by lia. reflexivity.
    + subst. rewrite Nat.sub_diag. reflexivity.
Qed.

Lemma set_seq_zero : forall ps, set_seq (repeat 0 (1 + length ps)) 1 ps = 0 :: map N.of_nat ps.
Proof.
  intros ps. apply list_ext_nth.
  - rewrite set_seq_length, repeat_length. cbn [length]. rewrite map_length. lia.
  - intros j J. rewrite set_seq_length, repeat_length in J. rewrite set_seq_nth by (rewrite repeat_length; lia).
    destruct j as [|j]; [reflexivity|]. cbn [nth].
    destruct (Nat.leb_spec 1 (S j)); [|lia]. destruct (Nat.ltb_spec (S j) (1 + length ps)); [|lia].
    cbn [andb]. replace (S j - 1)%nat with j by lia.
    rewrite <- (map_nth N.of_nat ps 0%nat j). reflexivity.
Qed.

Lemma nth_map_seq : forall (g : nat -> N) n s j, (j < n)%nat -> nth j (map g (seq s n)) 0 = g (s + j)%nat.
Proof.
  induction n as [|n IH]; intros s [|j] J; try lia; cbn [seq map nth].
  - f_equal. lia.
  - rewrite IH by lia. f_equal. lia.
Qed.

Lemma map_nth_seq : forall (l : list N) s, map (fun i => nth (s + i) (repeat 0 s ++ l) 0) (seq 0 (length l)) = l.
Proof.
  intros l s. apply list_ext_nth; [rewrite map_length, seq_length; auto|].
  intros j J. rewrite map_length, seq_length in J.
  rewrite nth_map_seq by auto. cbn [Nat.add]. rewrite app_nth2 by (rewrite repeat_length; lia).
  rewrite repeat_length. f_equal. lia.
Qed.

Lemma link_list_nth : forall x (l : list N), map (fun i => nth (1 + i) (x :: l) 0) (seq 0 (length l)) = l.
Proof. intros x l. exact (map_nth_seq l 0). Qed.

(* ------------------------------------------------------------------ *)
(** ** Data blocks behind each other *)

Fixpoint blocks_at (f : file) (lo : nat) (ps : list nat) (ks : list dblk) (hi : nat) : Prop :=
  match ps, ks with
  | [], [] => lo = hi
  | p :: ps, k :: ks => (lo <= p)%nat /\ dblk_at f p k /\ blocks_at f (dblk_end p k) ps ks hi
  | _, _ => False
  end.

Lemma dblk_at_range : forall f p k, dblk_at f p k -> (dblk_end p k <= length f)%nat.
Proof.
  intros f p k [_ [H _]]. rewrite app_length, header_bytes_length in H. cbn [length] in H. unfold dblk_end. lia.
Qed.

Lemma dblk_at_frame : forall f f' p k lo hi, agree f f' lo hi -> (lo <= p)%nat -> (dblk_end p k <= hi)%nat ->
  dblk_at f p k -> dblk_at f' p k.
Proof.
  intros f f' p k lo hi A L E [P H]. split; auto. eapply agree_holds; eauto.
  rewrite app_length, header_bytes_length. cbn [length]. unfold dblk_end in E. lia.
Qed.

Lemma blocks_at_range : forall ps ks f lo hi, blocks_at f lo ps ks hi -> (lo <= hi)%nat /\ length ps = length ks.
Proof.
  induction ps as [|p ps IH]; intros [|k ks] f lo hi H; cbn [blocks_at] in H; try contradiction.
  - subst. auto.
  - destruct H as (A & B & C). apply IH in C. unfold dblk_end in C. cbn [length]. lia.
Qed.

Lemma blocks_at_frame : forall ps ks f f' lo hi, blocks_at f lo ps ks hi -> agree f f' lo hi ->
  blocks_at f' lo ps ks hi.
Proof.
  induction ps as [|p ps IH]; intros [|k ks] f f' lo hi H A; cbn [blocks_at] in *; try contradiction; auto.
  destruct H as (B & C & D). pose proof (blocks_at_range _ _ _ _ _ D) as [R _].
  split; [auto|]. split.
  - eapply dblk_at_frame; eauto.
  - eapply IH; eauto. eapply agree_sub; eauto. unfold dblk_end. lia.
Qed.

Lemma write_dblks_spec : forall ks b i f, (0 < b_pos b)%nat ->
  (i + length ks <= length (b_links b))%nat ->
  holds f (b_pos b) (header_bytes (b_type b) (b_len b) (b_links b)) ->
  exists f' ps, let b' := mkB (b_pos b) (b_type b) (b_len b) (set_seq (b_links b) i ps) in
    write_dblks b i ks f = Ok (f', b') /\
    blocks_at f' (length f) ps ks (length f') /\
    holds f' (b_pos b) (header_bytes (b_type b) (b_len b) (b_links b')) /\
    (length f <= length f')%nat /\
    (forall j, (j < length f)%nat ->
       ~ (b_pos b + 24 + 8 * i <= j < b_pos b + 24 + 8 * (i + length ks))%nat ->
       nth_error f' j = nth_error f j).
Proof.
  induction ks as [|k ks IH]; intros b i f P L H.
  - exists f, []. cbn [write_dblks set_seq blocks_at length]. destruct b as [bp bt bl bls]. cbn in *.
    repeat split; auto; apply H.
  - cbn [length] in L.
    assert (HL : (b_pos b + 24 + 8 * length (b_links b) <= length f)%nat).
    { destruct H as [HL _]. rewrite header_bytes_length in HL. lia. }
    assert (LF : (0 < length f)%nat) by lia.
    cbn [write_dblks]. rewrite (write_dblk_spec k f LF). cbn [bind b_pos].
    set (p := (length f + pad8 (length f))%nat).
    set (f1 := f ++ repeat 0 (pad8 (length f)) ++ header_bytes (dblk_type k) (N.of_nat (24 + length (dblk_body k))) [] ++ dblk_body k).
    assert (L1 : length f1 = dblk_end p k).
    { unfold f1, dblk_end, p. rewrite !app_length, repeat_length, header_bytes_length. cbn [length]. lia. }
    assert (H1 : holds f1 (b_pos b) (header_bytes (b_type b) (b_len b) (b_links b))) by (apply holds_ext; auto).
    destruct (update_link4_spec b i (N.of_nat p) f1 P ltac:(lia) H1) as (f2 & E2 & S2 & H2).
    rewrite E2. cbn [bind].
    destruct (IH (mkB (b_pos b) (b_type b) (b_len b) (set_nth (b_links b) i (N.of_nat p))) (S i) f2)
      as (f' & ps & E3 & B3 & H3 & L3 & A3).
    { auto. } { cbn [b_links]. rewrite set_nth_length. lia. } { exact H2. }
    cbn [b_pos b_type b_len b_links] in *. exists f', (p :: ps). cbn [set_seq]. rewrite E3.
    assert (L2 : length f2 = length f1) by (destruct S2; lia).
    split; [reflexivity|]. split; [|split; [|split]].
    + cbn [blocks_at]. split; [unfold p; lia|]. split.
      * assert (DA1 : dblk_at f1 p k).
        { split; [unfold p; lia|]. unfold f1. rewrite app_assoc.
          pose proof (holds_end (f ++ repeat 0 (pad8 (length f)))
            (header_bytes (dblk_type k) (N.of_nat (24 + length (dblk_body k))) [] ++ dblk_body k) []) as X.
          rewrite app_nil_r in X. rewrite app_length, repeat_length in X. exact X. }
        assert (DA2 : dblk_at f2 p k).
        { eapply dblk_at_frame; [eapply (agree_same f1 f2 _ _ p (dblk_end p k)); eauto| | |exact DA1]; auto.
          right. unfold p. lia. }
        eapply (dblk_at_frame f2 f' p k p (dblk_end p k)); auto.
        split; [lia|]. intros j J. apply A3; [lia|]. unfold p in J. cbn [length]. lia.
      * rewrite <- L1, <- L2. exact B3.
    + exact H3.
    + rewrite L2, L1 in L3. unfold dblk_end, p in L3. lia.
    + intros j J NJ. cbn [length] in NJ.
      assert (LL : (length f <= length f1)%nat) by (rewrite L1; unfold dblk_end, p; lia).
      rewrite A3 by lia. destruct S2 as [_ S2]. rewrite S2 by lia. apply nth_error_app1. lia.
Qed.

(* ------------------------------------------------------------------ *)
(** ** DL blocks *)

Definition dl_size (d : dl) (n : nat) : nat := (24 + 8 * (1 + n) + length (dl_body d n))%nat.

(** The DL block [b] with its data blocks in the file, the last of them ending at [hi]. *)
Definition dl_at (f : file) (b : blk) (d : dl) (ks : list dblk) (hi : nat) : Prop :=
  exists ps, (0 < b_pos b)%nat /\ b_type b = ty_dl /\
    b_len b = N.of_nat (dl_size d (length ks)) /\ b_links b = link b 0 :: map N.of_nat ps /\
    holds f (b_pos b) (header_bytes (b_type b) (b_len b) (b_links b) ++ dl_body d (length ks)) /\
    blocks_at f (b_pos b + dl_size d (length ks)) ps ks hi.

Lemma dl_at_range : forall f b d ks hi, dl_at f b d ks hi -> (b_pos b + dl_size d (length ks) <= hi)%nat.
Proof.
  intros f b d ks hi (ps & _ & _ & _ & _ & _ & H). apply blocks_at_range in H. lia.
Qed.

Lemma dl_at_links : forall f b d ks hi, dl_at f b d ks hi -> length (b_links b) = (1 + length ks)%nat.
Proof.
  intros f b d ks hi (ps & _ & _ & _ & E & _ & H). apply blocks_at_range in H. rewrite E. cbn [length].
  rewrite map_length. lia.
Qed.

Lemma dl_at_holds_length : forall f b d ks hi, dl_at f b d ks hi ->
  length (header_bytes (b_type b) (b_len b) (b_links b) ++ dl_body d (length ks)) = dl_size d (length ks).
Proof.
  intros f b d ks hi H. apply dl_at_links in H. rewrite app_length, header_bytes_length, H. reflexivity.
Qed.

Lemma dl_at_frame : forall f f' b d ks hi lo, dl_at f b d ks hi -> (lo <= b_pos b)%nat -> agree f f' lo hi ->
  dl_at f' b d ks hi.
Proof.
  intros f f' b d ks hi lo D L A. pose proof (dl_at_holds_length _ _ _ _ _ D) as HL.
  pose proof (dl_at_range _ _ _ _ _ D) as R.
  destruct D as (ps & P & T & N & E & H & B). exists ps. split; [auto|]. split; [auto|]. split; [auto|]. split; [auto|]. split.
  - eapply agree_holds; eauto. lia.
  - eapply blocks_at_frame; eauto. eapply agree_sub; eauto. lia.
Qed.

Lemma holds_put_head : forall f p h t, holds f p h -> holds f (p + length h) t -> holds f p (h ++ t).
Proof. intros. apply holds_app. auto. Qed.

Lemma write_dl_spec : forall d ks f, (0 < length f)%nat ->
  exists f' b, write_dl d ks f = Ok (f', b) /\ dl_at f' b d ks (length f') /\ link b 0 = 0 /\
    (length f <= b_pos b)%nat /\ agree f f' 0 (length f).
Proof.
  intros d ks f L. unfold write_dl. rewrite write_block4_spec by auto. cbn [bind].
  rewrite repeat_length. set (n := length ks). set (p := (length f + pad8 (length f))%nat).
  fold (dl_size d n). set (h := header_bytes ty_dl (N.of_nat (dl_size d n)) (repeat 0 (1 + n))).
  set (f1 := f ++ repeat 0 (pad8 (length f)) ++ h ++ dl_body d n).
  assert (HH : length h = (24 + 8 * (1 + n))%nat) by (unfold h; rewrite header_bytes_length, repeat_length; auto).
  assert (L1 : length f1 = (p + dl_size d n)%nat).
  { unfold f1, dl_size, p. rewrite !app_length, repeat_length, HH. lia. }
  assert (H1 : holds f1 p (h ++ dl_body d n)).
  { unfold f1. rewrite app_assoc. pose proof (holds_end (f ++ repeat 0 (pad8 (length f))) (h ++ dl_body d n) []) as X.
    rewrite app_nil_r in X. rewrite app_length, repeat_length in X. exact X. }
  pose proof H1 as H1'. apply holds_app in H1' as [H1h H1b]. rewrite HH in H1b.
  destruct (write_dblks_spec ks (mkB p ty_dl (N.of_nat (dl_size d n)) (repeat 0 (1 + n))) 1 f1)
    as (f' & ps & E & B & H & LL & A); cbn [b_pos b_type b_len b_links] in *.
  - unfold p. lia.
  - rewrite repeat_length. fold n. lia.
  - exact H1h.
  - pose proof (blocks_at_range _ _ _ _ _ B) as [_ LP]. fold n in LP.
    rewrite <- LP, set_seq_zero in *. rewrite LP in *.
    exists f'. eexists. split; [exact E|]. cbn [b_pos link b_links nth]. split; [|split; [|split]].
    + exists ps. cbn [b_pos b_type b_len b_links link nth]. fold n.
      split; [unfold p; lia|]. split; [auto|]. split; [auto|]. split; [auto|].
      split; [|rewrite <- L1; exact B].
      apply holds_put_head; [exact H|].
      replace (length (header_bytes ty_dl (N.of_nat (dl_size d n)) (0 :: map N.of_nat ps))) with (24 + 8 * (1 + n))%nat
        by (rewrite header_bytes_length; cbn [length]; rewrite map_length; lia).
      destruct H1b as [X Y]. split; [lia|]. intros i I. rewrite A; [auto|lia|fold n; lia].
    + reflexivity.
    + unfold p. lia.
    + split; [lia|]. intros i I. rewrite A; [unfold f1; apply nth_error_app1; lia|unfold p in L1; lia|].
      unfold p. lia.
Qed.

(* ------------------------------------------------------------------ *)
(** ** Chains of DL blocks *)

Definition grp := (blk * dl * list dblk)%type.
Definition g_blk (g : grp) : blk := fst (fst g).

Fixpoint chain (f : file) (lo : nat) (l : N) (gs : list grp) (hi : nat) (n : N) : Prop :=
  match gs with
  | [] => lo = hi /\ l = n
  | (b, d, ks) :: r => exists mid, (lo <= b_pos b)%nat /\ l = N.of_nat (b_pos b) /\
      dl_at f b d ks mid /\ chain f mid (link b 0) r hi n
  end.

Lemma chain_app : forall a b f lo l hi n,
  chain f lo l (a ++ b) hi n <-> exists m x, chain f lo l a m x /\ chain f m x b hi n.
Proof.
  induction a as [|[[bk d] ks] a IH]; intros b f lo l hi n; cbn [app chain].
  - split; [intros H; exists lo, l; auto|]. intros (m & x & [-> ->] & H). auto.
  - split.
    + intros (mid & A & B & C & D). apply IH in D as (m & x & D1 & D2). exists m, x. split; auto.
      exists mid. auto.
    + intros (m & x & (mid & A & B & C & D) & E). exists mid. split; [auto|]. split; [auto|]. split; [auto|].
      apply IH. exists m, x. auto.
Qed.

Lemma chain_range : forall gs f lo l hi n, chain f lo l gs hi n -> (lo <= hi)%nat.
Proof.
  induction gs as [|[[b d] ks] gs IH]; intros f lo l hi n H; cbn [chain] in H.
  - lia.
  - destruct H as (mid & A & _ & C & D). apply IH in D. apply dl_at_range in C. lia.
Qed.

Lemma chain_frame : forall gs f f' lo l hi n, chain f lo l gs hi n -> agree f f' lo hi ->
  chain f' lo l gs hi n.
Proof.
  induction gs as [|[[b d] ks] gs IH]; intros f f' lo l hi n H A; cbn [chain] in *; auto.
  destruct H as (mid & B & C & D & E). pose proof (chain_range _ _ _ _ _ _ E).
  pose proof (dl_at_range _ _ _ _ _ D). exists mid. split; [auto|]. split; [auto|]. split.
  - eapply dl_at_frame; [exact D|exact B|]. eapply agree_sub; eauto.
  - eapply IH; [exact E|]. eapply agree_sub; eauto. lia.
Qed.

(** Setting the link of the last DL block. *)
Lemma chain_relink : forall gs b d ks f lo l hi v,
  chain f lo l (gs ++ [(b, d, ks)]) hi 0 -> 
  exists f', update_link4 b 0 v f = Ok (f', mkB (b_pos b) (b_type b) (b_len b) (set_nth (b_links b) 0 v)) /\
    (exists pos, (lo <= pos)%nat /\ (pos + 8 <= hi)%nat /\ same_outside f f' pos 8) /\
    chain f' lo l (gs ++ [(mkB (b_pos b) (b_type b) (b_len b) (set_nth (b_links b) 0 v), d, ks)]) hi v.
Proof.
  intros gs b d ks f lo l hi v H. apply chain_app in H as (m & x & H1 & H2).
  cbn [chain] in H2. destruct H2 as (mid & A & B & C & D & E). subst mid.
  pose proof (dl_at_range _ _ _ _ _ C) as R. pose proof (dl_at_holds_length _ _ _ _ _ C) as HL.
  pose proof (dl_at_links _ _ _ _ _ C) as LL. pose proof (chain_range _ _ _ _ _ _ H1) as R1.
  destruct C as (ps & P & T & N & K & HH & BL). pose proof HH as HH'. apply holds_app in HH' as [Hh Hb].
  destruct (update_link4_spec b 0 v f P ltac:(lia) Hh) as (f' & E1 & S & H').
  exists f'. split; [exact E1|]. split.
  - exists (b_pos b + 24 + 8 * 0)%nat. split; [lia|]. split; [unfold dl_size in R; lia|exact S].
  - apply chain_app. exists m, x. split.
    + eapply chain_frame; [exact H1|]. eapply agree_same; [exact S|]. lia.
    + cbn [chain b_pos]. exists hi. split; [auto|]. split; [auto|]. split.
      * exists ps. cbn [b_pos b_type b_len b_links]. split; [auto|]. split; [auto|]. split; [auto|]. split.
        { unfold link. cbn [b_links]. rewrite K. reflexivity. }
        split.
        { apply holds_put_head; [exact H'|]. rewrite header_bytes_length, set_nth_length.
          rewrite header_bytes_length in Hb. eapply holds_frame; [exact S|exact Hb|]. lia. }
        { eapply blocks_at_frame; [exact BL|]. eapply agree_same; [exact S|]. unfold dl_size. lia. }
      * split; auto. unfold link. cbn [b_links]. rewrite K. reflexivity.
Qed.
