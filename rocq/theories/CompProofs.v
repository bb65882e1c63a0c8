(** List blocks of several data groups in one file. *)
From Verif Require Import Base BlockModel BlockSpec BlockProofs BlockProofs2 BlockProofs3
  DataModel DataSpec TransProofs DataProofs ListProofs StoreProofs StoreProofs2.
From Coq Require Import Lia.
Local Open Scope N_scope.

(** Positions that belong to a data group. *)
Definition area := nat -> Prop.

Definition kept (X : area) (f f' : file) : Prop :=
  (length f <= length f')%nat /\ forall i, X i -> nth_error f' i = nth_error f i.

Lemma kept_agree : forall (X : area) f f' lo hi, kept X f f' -> (forall i, (lo <= i < hi)%nat -> X i) -> agree f f' lo hi.
Proof. intros X f f' lo hi [L H] A. split; [exact L|]. intros i I. apply H. apply A. exact I. Qed.

(** [chain] with all blocks in [X]. *)
Fixpoint chain_in (X : area) (f : file) (lo : nat) (l : N) (gs : list grp) (hi : nat) (n : N) : Prop :=
  match gs with
  | [] => lo = hi /\ l = n
  | (b, d, ks) :: r => exists mid, (lo <= b_pos b)%nat /\ l = N.of_nat (b_pos b) /\
      dl_at f b d ks mid /\ (forall i, (b_pos b <= i < mid)%nat -> X i) /\ chain_in X f mid (link b 0) r hi n
  end.

Lemma chain_in_chain : forall X gs f lo l hi n, chain_in X f lo l gs hi n -> chain f lo l gs hi n.
Proof.
  induction gs as [|[[b d] ks] gs IH]; intros f lo l hi n H; cbn [chain_in chain] in *; [exact H|].
  destruct H as (mid & A & B & C & D & E). exists mid. auto.
Qed.

Lemma chain_in_sub : forall (X Y : area) gs f lo l hi n, (forall i, X i -> Y i) -> chain_in X f lo l gs hi n ->
  chain_in Y f lo l gs hi n.
Proof.
  intros X Y gs. induction gs as [|[[b d] ks] gs IH]; intros f lo l hi n S H; cbn [chain_in] in *; [exact H|].
  destruct H as (mid & A & B & C & D & E). exists mid. auto 10.
Qed.

Lemma chain_in_frame : forall X gs f f' lo l hi n, chain_in X f lo l gs hi n -> kept X f f' -> chain_in X f' lo l gs hi n.
Proof.
  intros X gs. induction gs as [|[[b d] ks] gs IH]; intros f f' lo l hi n H K; cbn [chain_in] in *; [exact H|].
  destruct H as (mid & A & B & C & D & E). exists mid. split; [auto|]. split; [auto|]. split; [|split; eauto].
  eapply dl_at_frame; [exact C|reflexivity|]. eapply kept_agree; eauto.
Qed.

Lemma chain_in_app : forall X a b f lo l hi n,
  chain_in X f lo l (a ++ b) hi n <-> exists m x, chain_in X f lo l a m x /\ chain_in X f m x b hi n.
Proof.
  intros X. induction a as [|[[bk d] ks] a IH]; intros b f lo l hi n; cbn [app chain_in].
  - split; [intros H; exists lo, l; auto|]. intros (m & x & [-> ->] & H). auto.
  - split.
    + intros (mid & A & B & C & D & E). apply IH in E as (m & x & D1 & D2). exists m, x. split; auto.
      exists mid. auto.
    + intros (m & x & (mid & A & B & C & D & F) & E). exists mid. split; [auto|]. split; [auto|]. split; [auto|].
      split; [auto|]. apply IH. exists m, x. auto.
Qed.

(** Setting the link of the last DL block. *)
Lemma chain_in_relink : forall X gs b d ks f lo l hi v,
  chain_in X f lo l (gs ++ [(b, d, ks)]) hi 0 ->
  exists f' pos, update_link4 b 0 v f = Ok (f', mkB (b_pos b) (b_type b) (b_len b) (set_nth (b_links b) 0 v)) /\
    (lo <= pos)%nat /\ (pos + 8 <= hi)%nat /\ (forall i, (pos <= i < pos + 8)%nat -> X i) /\ same_outside f f' pos 8 /\
    chain_in X f' lo l (gs ++ [(mkB (b_pos b) (b_type b) (b_len b) (set_nth (b_links b) 0 v), d, ks)]) hi v.
Proof.
  intros X gs b d ks f lo l hi v H.
  destruct (chain_relink gs b d ks f lo l hi v (chain_in_chain _ _ _ _ _ _ _ H)) as (f' & E1 & _ & C').
  apply chain_in_app in H as (m & x & H1 & H2).
  cbn [chain_in] in H2. destruct H2 as (mid & A & B & C & XB & D & E). subst mid.
  pose proof (dl_at_range _ _ _ _ _ C) as R. pose proof (dl_at_links _ _ _ _ _ C) as LL.
  pose proof (chain_range _ _ _ _ _ _ (chain_in_chain _ _ _ _ _ _ _ H1)) as R1.
  destruct C as (ps & P & T & N & K & HH & BL). apply holds_app in HH as [Hh Hb].
  destruct (update_link4_spec b 0 v f P ltac:(lia) Hh) as (f2 & E2 & S & H').
  rewrite E1 in E2. injection E2 as <-.
  exists f', (b_pos b + 24 + 8 * 0)%nat. unfold dl_size in R. split; [exact E1|]. split; [lia|]. split; [lia|].
  split; [intros i I; apply XB; lia|]. split; [exact S|].
  apply chain_in_app. exists m, x. split.
  - (* the blocks before *)
    assert (G : forall gs f lo l m x, chain_in X f lo l gs m x -> (m <= b_pos b)%nat -> agree f f' lo m -> chain_in X f' lo l gs m x).
    { clear. intros gs. induction gs as [|[[b0 d0] ks0] gs IH]; intros f lo l m x H L AG; cbn [chain_in] in *; [exact H|].
      destruct H as (mid & A & B & C & D & E). pose proof (chain_range _ _ _ _ _ _ (chain_in_chain _ _ _ _ _ _ _ E)).
      pose proof (dl_at_range _ _ _ _ _ C). exists mid. split; [auto|]. split; [auto|]. split.
      - eapply dl_at_frame; [exact C|exact A|]. eapply agree_sub; eauto.
      - split; [exact D|]. eapply IH; [exact E|lia|]. eapply agree_sub; eauto. lia. }
    apply (G gs f lo l m x H1 A). eapply agree_same; [exact S|]. lia.
  - apply chain_app in C' as (m2 & x2 & C1 & C2). cbn [chain chain_in] in *.
    destruct C2 as (mid2 & Q1 & Q2 & Q3 & Q4 & Q5). subst mid2. cbn [b_pos] in *. exists hi. split; [auto|]. split; [auto|].
    split; [exact Q3|]. split; [exact XB|]. auto.
Qed.

Record tail_in (X : area) (f : file) (lo : nat) (hl : blk) (l : N) (gs : list grp) (hi : nat) : Prop := {
  ti_lo : (lo <= b_pos hl)%nat;
  ti_hl : hl_at f hl l;
  ti_own : forall i, (b_pos hl <= i < b_pos hl + 40)%nat -> X i;
  ti_chain : chain_in X f (b_pos hl + 40) l gs hi 0;
  ti_hi : (hi <= length f)%nat;
  ti_in : forall i, X i -> (lo <= i < length f)%nat
}.

Lemma tail_in_ok : forall X f lo hl l gs hi, tail_in X f lo hl l gs hi -> tail_ok f lo hl l gs hi.
Proof. intros X f lo hl l gs hi [A B C D E F]. repeat split; auto. apply (chain_in_chain X). exact D. Qed.

Lemma tail_in_frame : forall X f f' lo hl l gs hi, tail_in X f lo hl l gs hi -> kept X f f' -> tail_in X f' lo hl l gs hi.
Proof.
  intros X f f' lo hl l gs hi [A B C D E F] K. pose proof K as [KL _]. constructor; auto.
  - eapply hl_at_frame; [exact B|reflexivity|]. eapply kept_agree; eauto.
  - eapply chain_in_frame; eauto.
  - lia.
  - intros i I. apply F in I. lia.
Qed.

(** The area of a group after blocks were appended to [f], giving [f']. *)
Definition grown (X : area) (f f' : file) : area := fun i => X i \/ (length f <= i < length f')%nat.

Lemma tail_in_append : forall X f lo hl l gs hi last d ks, (0 < lo)%nat ->
  tail_in X f lo hl l gs hi -> last_ok gs last ->
  exists f1 db f2 hl2 l2 gs2,
    write_dl d ks f = Ok (f1, db) /\
    match last with
    | None => bind (update_link4 hl 0 (N.of_nat (b_pos db)) f1) (fun '(f, hl) => Ok (f, hl))
    | Some last => bind (update_link4 last 0 (N.of_nat (b_pos db)) f1) (fun '(f, _) => Ok (f, hl))
    end = Ok (f2, hl2) /\
    tail_in (grown X f f2) f2 lo hl2 l2 gs2 (length f2) /\ last_ok gs2 (Some db) /\
    map strip gs2 = map strip gs ++ [(d, ks)] /\ b_pos hl2 = b_pos hl /\
    (length f <= length f2)%nat /\
    forall i, (i < length f)%nat -> ~ X i -> nth_error f2 i = nth_error f i.
Proof.
  intros X f lo hl l gs hi last d ks LO T LK. pose proof T as [A B XB C D XI].
  pose proof (hl_at_range _ _ _ B) as RB. pose proof (chain_range _ _ _ _ _ _ (chain_in_chain _ _ _ _ _ _ _ C)) as RC.
  destruct (write_dl_spec d ks f ltac:(lia)) as (f1 & db & E1 & D1 & K1 & P1 & A1).
  assert (LF : (length f <= length f1)%nat) by (destruct A1; auto).
  assert (KX : kept X f f1).
  { destruct A1 as [_ A1]. split; [exact LF|]. intros i I. apply A1. apply XI in I. lia. }
  destruct (tail_in_frame _ _ _ _ _ _ _ _ T KX) as [_ B1 _ C1 _ _].
  pose proof (dl_at_range _ _ _ _ _ D1) as RD. unfold dl_size in RD.
  assert (NB : forall i, (b_pos db <= i < length f1)%nat -> (length f <= i < length f1)%nat) by (intros; lia).
  destruct last as [b|].
  - destruct LK as (g0 & d0 & ks0 & ->).
    destruct (chain_in_relink X g0 b d0 ks0 f1 _ l hi (N.of_nat (b_pos db)) C1) as (f2 & pos & E2 & X1 & X2 & XP & S2 & C2).
    set (b2 := mkB (b_pos b) (b_type b) (b_len b) (set_nth (b_links b) 0 (N.of_nat (b_pos db)))) in *.
    exists f1, db, f2, hl, l, ((g0 ++ [(b2, d0, ks0)]) ++ [(db, d, ks)]).
    split; [exact E1|]. split; [rewrite E2; reflexivity|].
    assert (L2 : length f2 = length f1) by (destruct S2; auto).
    assert (D2 : dl_at f2 db d ks (length f1)).
    { eapply dl_at_frame; [exact D1|reflexivity|]. eapply agree_same; [exact S2|]. right. lia. }
    split; [|split; [|split; [|split; [|split]]]].
    + constructor.
      * exact A.
      * eapply hl_at_frame; [exact B1|reflexivity|]. eapply agree_same; [exact S2|]. lia.
      * intros i I. left. auto.
      * apply chain_in_app.
        exists hi, (N.of_nat (b_pos db)). split; [eapply chain_in_sub; [|exact C2]; intros i I; left; exact I|]. cbn [chain_in]. exists (length f1).
        split; [lia|]. split; [auto|]. split; [exact D2|]. split; [|rewrite L2; auto].
        intros i I. right. rewrite L2. auto.
      * lia.
      * intros i [I|I]; [apply XI in I; lia|lia].
    + exists (g0 ++ [(b2, d0, ks0)]), d, ks. reflexivity.
    + rewrite !map_app. reflexivity.
    + reflexivity.
    + lia.
    + intros i I NI. destruct S2 as [_ S2]. rewrite S2.
      * destruct A1 as [_ A1]. apply A1. lia.
      * destruct (Nat.lt_ge_cases i pos); [lia|]. destruct (Nat.le_gt_cases (pos + 8) i); [lia|].
        exfalso. apply NI. apply XP. lia.
  - cbn in LK. subst gs. cbn [chain_in] in C1. destruct C1 as [C1 C1'].
    destruct (hl_relink f1 hl l (N.of_nat (b_pos db)) B1) as (f2 & hl2 & E2 & P2 & B2 & S2).
    exists f1, db, f2, hl2, (N.of_nat (b_pos db)), [(db, d, ks)].
    split; [exact E1|]. split; [rewrite E2; reflexivity|].
    assert (L2 : length f2 = length f1) by (destruct S2; auto).
    split; [|split; [|split; [|split; [|split]]]].
    + constructor.
      * lia.
      * exact B2.
      * intros i I. left. apply XB. lia.
      * cbn [chain_in]. exists (length f2). split; [lia|]. split; [auto|]. split; [|split; [|auto]].
        { rewrite L2. eapply dl_at_frame; [exact D1|reflexivity|]. eapply agree_same; [exact S2|]. lia. }
        { intros i I. right. rewrite L2 in *. auto. }
      * lia.
      * intros i [I|I]; [apply XI in I; lia|lia].
    + exists [], d, ks. reflexivity.
    + reflexivity.
    + exact P2.
    + lia.
    + intros i I NI. destruct S2 as [_ S2]. rewrite S2.
      * destruct A1 as [_ A1]. apply A1. lia.
      * destruct (Nat.lt_ge_cases i (b_pos hl + 24)); [lia|]. destruct (Nat.le_gt_cases (b_pos hl + 24 + 8) i); [lia|].
        exfalso. apply NI. apply XB. lia.
Qed.

(** Reading a list. *)
Section Read.
Context (deflate : list N -> list N) (inflate : list N -> nat -> list N) (Z : zlib_ok deflate inflate).

Lemma tail_read : forall f lo hl l gs hi xss fuel, tail_ok f lo hl l gs hi -> N.of_nat (length f) < 2 ^ 63 ->
  steps_rel deflate 0 (map strip gs) xss ->
  N.of_nat (length (concat (concat xss))) < 2 ^ 63 -> Forall (fun xs => N.of_nat (length xs) < 2 ^ 32) xss ->
  (length xss + 2 < fuel)%nat ->
  exists ds, read_blocks fuel f (N.of_nat (b_pos hl)) = Some (Ok ds) /\ all_bytes inflate f ds = Ok (concat xss).
Proof.
  intros f lo hl l gs hi xss fuel (T2 & T3 & T4 & T5) L R B C FU.
  pose proof (steps_made deflate gs xss 0 R ltac:(lia) C) as M.
  pose proof (chain_link_bound _ _ _ _ _ _ T4 L T5 ltac:(reflexivity)) as LB.
  destruct (read_hl_at _ _ _ T3 L ltac:(lia)) as [RH RT].
  assert (HP : (0 < b_pos hl)%nat) by (destruct T3 as (? & ? & _ & _ & X & _); exact X).
  pose proof (hl_at_range _ _ _ T3) as RR.
  assert (P64 : pos64 (N.of_nat (b_pos hl)) = true)
    by (unfold pos64; apply andb_true_iff; split; apply N.ltb_lt; lia).
  assert (LG : length gs = length xss) by (clear - M; induction M; cbn [length]; auto).
  destruct fuel as [|fuel]; [lia|].
  destruct (read_blocks_chain deflate inflate Z gs xss _ _ l hi fuel T4 T5 L M ltac:(lia)) as (is & RD & G & RB).
  pose proof (Forall3_blocks inflate _ _ _ _ G) as GB.
  exists (concat (map di_blocks is)). split.
  - rewrite (read_blocks_hl fuel _ _ hl l P64 (Nat2N.id _) RT RH). exact RB.
  - apply (good_all_bytes inflate). exact GB.
Qed.
End Read.
