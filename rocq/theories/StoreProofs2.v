(** Proofs about histories of a data group written compressed, and about signal data. *)
From Verif Require Import Base BlockModel BlockSpec BlockProofs BlockProofs2 BlockProofs3
  DataModel DataSpec TransProofs DataProofs ListProofs StoreProofs.
From Coq Require Import Lia.
Local Open Scope N_scope.

Lemma quiet_refl : forall lo p li f, quiet lo p li f f.
Proof. intros. split; auto. Qed.

Lemma quiet_trans : forall lo p li f g h, quiet lo p li f g -> quiet lo p li g h -> quiet lo p li f h.
Proof. intros lo p li f g h [A B] [C D]. split; [lia|]. intros. rewrite D by auto. auto. Qed.

Lemma agree_quiet : forall lo p li f f' lo', agree f f' 0 lo' -> (lo <= lo')%nat -> quiet lo p li f f'.
Proof. intros lo p li f f' lo' [A B] L. split; auto. intros. apply B. lia. Qed.

Lemma owner_frame : forall f f' b li lo, owner_ok f b li lo -> agree f f' 0 lo -> owner_ok f' b li lo.
Proof.
  intros f f' b li lo (A & B & C & D & H) AG. split; [auto|]. split; [auto|]. split; [auto|].
  split; [destruct AG; lia|]. eapply agree_holds; eauto; [lia|]. rewrite header_bytes_length. lia.
Qed.

Lemma owner_relink : forall f b li lo v, owner_ok f b li lo ->
  exists f', update_link4 b li v f = Ok (f', mkB (b_pos b) (b_type b) (b_len b) (set_nth (b_links b) li v)) /\
    owner_ok f' (mkB (b_pos b) (b_type b) (b_len b) (set_nth (b_links b) li v)) li lo /\
    same_outside f f' (b_pos b + 24 + 8 * li) 8 /\ quiet lo (b_pos b) li f f'.
Proof.
  intros f b li lo v (A & B & C & D & H).
  destruct (update_link4_spec b li v f A B H) as (f' & E & S & H').
  exists f'. split; [exact E|]. split; [|split; [exact S|]].
  - unfold owner_ok. cbn [b_pos b_type b_len b_links]. rewrite set_nth_length.
    split; [auto|]. split; [auto|]. split; [auto|]. split; [destruct S; lia|exact H'].
  - destruct S as [SL S]. split; [lia|]. intros i I NI. apply S. lia.
Qed.

Definition strip (g : grp) : dl * list dblk := let '(b, d, ks) := g in (d, ks).

(** HL block and chain behind [lo]. *)
Definition tail_ok (f : file) (lo : nat) (hl : blk) (l : N) (gs : list grp) (hi : nat) : Prop :=
  (lo <= b_pos hl)%nat /\ hl_at f hl l /\ chain f (b_pos hl + 40) l gs hi 0 /\ (hi <= length f)%nat.

Definition last_ok (gs : list grp) (last : option blk) : Prop :=
  match last with
  | None => gs = []
  | Some b => exists g0 d ks, gs = g0 ++ [(b, d, ks)]
  end.

Lemma tail_append : forall f lo hl l gs hi last d ks, (0 < lo)%nat ->
  tail_ok f lo hl l gs hi -> last_ok gs last ->
  exists f1 db f2 hl2 l2 gs2,
    write_dl d ks f = Ok (f1, db) /\
    match last with
    | None => bind (update_link4 hl 0 (N.of_nat (b_pos db)) f1) (fun '(f, hl) => Ok (f, hl))
    | Some last => bind (update_link4 last 0 (N.of_nat (b_pos db)) f1) (fun '(f, _) => Ok (f, hl))
    end = Ok (f2, hl2) /\
    tail_ok f2 lo hl2 l2 gs2 (length f2) /\ last_ok gs2 (Some db) /\
    map strip gs2 = map strip gs ++ [(d, ks)] /\ agree f f2 0 lo /\ b_pos hl2 = b_pos hl.
Proof.
  intros f lo hl l gs hi last d ks LO (A & B & C & D) LK.
  pose proof (hl_at_range _ _ _ B) as RB. pose proof (chain_range _ _ _ _ _ _ C) as RC.
  destruct (write_dl_spec d ks f ltac:(lia)) as (f1 & db & E1 & D1 & K1 & P1 & A1).
  assert (B1 : hl_at f1 hl l).
  { eapply (hl_at_frame f f1 hl l lo); [exact B|exact A|]. eapply agree_sub; [exact A1| |]; lia. }
  assert (C1 : chain f1 (b_pos hl + 40) l gs hi 0).
  { eapply chain_frame; [exact C|]. eapply agree_sub; [exact A1| |]; lia. }
  pose proof (dl_at_range _ _ _ _ _ D1) as RD. unfold dl_size in RD.
  destruct last as [b|].
  - destruct LK as (g0 & d0 & ks0 & ->).
    destruct (chain_relink g0 b d0 ks0 f1 _ l hi (N.of_nat (b_pos db)) C1) as (f2 & E2 & (pos & X1 & X2 & S2) & C2).
    set (b2 := mkB (b_pos b) (b_type b) (b_len b) (set_nth (b_links b) 0 (N.of_nat (b_pos db)))) in *.
    exists f1, db, f2, hl, l, ((g0 ++ [(b2, d0, ks0)]) ++ [(db, d, ks)]).
    split; [exact E1|]. split; [rewrite E2; reflexivity|].
    assert (L2 : length f2 = length f1) by (destruct S2; auto).
    assert (D2 : dl_at f2 db d ks (length f1)).
    { eapply dl_at_frame; [exact D1|reflexivity|]. eapply agree_same; [exact S2|]. right. lia. }
    split; [|split; [|split; [|split]]].
    + split; [auto|]. split.
      * eapply hl_at_frame; [exact B1|reflexivity|]. eapply agree_same; [exact S2|]. lia.
      * split; [|lia].
        apply chain_app.
        exists hi, (N.of_nat (b_pos db)). split; [exact C2|]. cbn [chain]. exists (length f1).
        split; [lia|]. split; [auto|]. split; [exact D2|]. rewrite L2. auto.
    + exists (g0 ++ [(b2, d0, ks0)]), d, ks. reflexivity.
    + rewrite !map_app. reflexivity.
    + eapply agree_trans; [eapply agree_sub; [exact A1| |]; lia|]. eapply agree_same; [exact S2|]. lia.
    + reflexivity.
  - cbn in LK. subst gs. cbn [chain] in C1. destruct C1 as [C1 C1'].
    destruct (hl_relink f1 hl l (N.of_nat (b_pos db)) B1) as (f2 & hl2 & E2 & P2 & B2 & S2).
    exists f1, db, f2, hl2, (N.of_nat (b_pos db)), [(db, d, ks)].
    split; [exact E1|]. split; [rewrite E2; reflexivity|].
    assert (L2 : length f2 = length f1) by (destruct S2; auto).
    split; [|split; [|split; [|split]]].
    + split; [lia|]. split; [exact B2|]. split; [|lia]. cbn [chain]. exists (length f2).
      split; [lia|]. split; [auto|]. split; [|auto]. rewrite L2.
      eapply dl_at_frame; [exact D1|reflexivity|]. eapply agree_same; [exact S2|]. lia.
    + exists [], d, ks. reflexivity.
    + reflexivity.
    + eapply agree_trans; [eapply agree_sub; [exact A1| |]; lia|]. eapply agree_same; [exact S2|]. lia.
    + exact P2.
Qed.

Lemma tail_frame : forall f f' lo hl l gs hi, tail_ok f lo hl l gs hi -> agree f f' lo (length f) ->
  tail_ok f' lo hl l gs hi.
Proof.
  intros f f' lo hl l gs hi (A & B & C & D) AG.
  pose proof (hl_at_range _ _ _ B) as RB. pose proof (chain_range _ _ _ _ _ _ C) as RC.
  split; [auto|]. split.
  - eapply hl_at_frame; [exact B|exact A|]. eapply agree_sub; [exact AG| |]; lia.
  - split; [|destruct AG; lia]. eapply chain_frame; [exact C|]. eapply agree_sub; [exact AG| |]; lia.
Qed.

(** The whole state. *)
Definition sinv (lo : nat) (dg0 : blk) (s : store) (gs : list grp) : Prop :=
  let dg := st_dg s in
  owner_ok (st_file s) dg 2 lo /\
  b_pos dg = b_pos dg0 /\ b_type dg = b_type dg0 /\ b_len dg = b_len dg0 /\
  b_links dg = set_nth (b_links dg0) 2 (link dg 2) /\
  match st_hl s with
  | None => gs = [] /\ st_last s = None /\ link dg 2 = 0
  | Some hl => exists l hi, link dg 2 = N.of_nat (b_pos hl) /\ tail_ok (st_file s) lo hl l gs hi /\
                            last_ok gs (st_last s)
  end.

Lemma align_agree : forall f, agree f (align f) 0 (length f).
Proof. intros. apply agree_app. lia. Qed.

Lemma store_dl_inv : forall lo dg0 s gs d ks, sinv lo dg0 s gs ->
  exists s' gs', store_dl d ks s = Ok s' /\ sinv lo dg0 s' gs' /\
    map strip gs' = map strip gs ++ [(d, ks)] /\ quiet lo (b_pos dg0) 2 (st_file s) (st_file s').
Proof.
  intros lo dg0 [f dg ohl olast] gs d ks (OW & I1 & I2 & I3 & I4 & T). cbn [st_file st_dg st_hl st_last] in *.
  assert (LO : (0 < lo)%nat) by (destruct OW as (? & ? & ? & _); lia).
  (* the first two steps *)
  assert (H : exists f2 dg2 hl l hi,
    bind (if link dg 2 =? 0 then let f := align f in update_link4 dg 2 (N.of_nat (length f)) f else Ok (f, dg))
      (fun '(f, dg) => bind (match ohl with Some hl => Ok (f, hl) | None => write_hl 0 0 f end)
      (fun '(f, hl) => Ok (f, dg, hl))) = Ok (f2, dg2, hl) /\
    owner_ok f2 dg2 2 lo /\ b_pos dg2 = b_pos dg0 /\ b_type dg2 = b_type dg0 /\ b_len dg2 = b_len dg0 /\
    b_links dg2 = set_nth (b_links dg0) 2 (link dg2 2) /\
    tail_ok f2 lo hl l gs hi /\ last_ok gs olast /\ quiet lo (b_pos dg0) 2 f f2).
  { destruct ohl as [hl|].
    - destruct T as (l & hi & T1 & T2 & T3). 
      assert (HP : (0 < b_pos hl)%nat) by (destruct T2 as (_ & (? & ? & _ & _ & X & _) & _); exact X).
      replace (link dg 2 =? 0) with false by (symmetry; apply N.eqb_neq; lia).
      exists f, dg, hl, l, hi. cbn [bind]. split; [reflexivity|]. split; [auto|]. split; [auto|]. split; [auto|].
      split; [auto|]. split; [auto|]. split; [auto|]. split; [auto|]. apply quiet_refl.
    - destruct T as (-> & -> & T). rewrite T. change (0 =? 0) with true. cbn iota zeta.
      assert (LF : (lo <= length f)%nat) by (destruct OW as (_ & _ & _ & X & _); exact X).
      assert (OW1 : owner_ok (align f) dg 2 lo)
        by (eapply owner_frame; [exact OW|]; eapply agree_sub; [apply align_agree| |]; lia).
      destruct (owner_relink _ _ _ _ (N.of_nat (length (align f))) OW1) as (f1 & E1 & OW2 & S1 & Q1).
      rewrite E1. cbn [bind].
      assert (LA : (length f <= length (align f))%nat) by (unfold align; rewrite app_length; lia).
      assert (L1 : length f1 = length (align f)) by (destruct S1; auto).
      destruct (write_hl_spec 0 0 f1 ltac:(lia) ltac:(reflexivity) ltac:(reflexivity))
        as (f2 & hl & E2 & H2 & P2 & L2 & A2).
      rewrite E2. cbn [bind]. eexists f2, _, hl, 0, (b_pos hl + 40)%nat. split; [reflexivity|].
      split; [eapply owner_frame; [exact OW2|]; eapply agree_sub; [exact A2| |]; lia|].
      cbn [b_pos b_type b_len b_links]. split; [auto|]. split; [auto|]. split; [auto|]. split.
      { unfold link. cbn [b_links]. rewrite link_set_nth by (destruct OW; tauto). rewrite Nat.eqb_refl.
        rewrite I4, set_nth_twice. reflexivity. }
      split; [|split; [reflexivity|]].
      { split; [lia|]. split; [exact H2|]. split; [|lia]. cbn [chain]. auto. }
      eapply quiet_trans; [eapply agree_quiet; [apply align_agree|auto]|].
      eapply quiet_trans; [rewrite <- I1; exact Q1|]. eapply agree_quiet; [exact A2|lia]. }
  destruct H as (f2 & dg2 & hl & l & hi & E & OW2 & J1 & J2 & J3 & J4 & T2 & LK & Q2).
  destruct (tail_append f2 lo hl l gs hi olast d ks LO T2 LK)
    as (f3 & db & f4 & hl4 & l4 & gs4 & E3 & E4 & T4 & LK4 & M4 & A4 & P4).
  assert (OW4 : owner_ok f4 dg2 2 lo) by (eapply owner_frame; eauto).
  destruct (owner_relink f4 dg2 2 lo (N.of_nat (b_pos hl4)) OW4) as (f5 & E5 & OW5 & S5 & Q5).
  unfold store_dl. cbn [st_file st_dg st_hl st_last].
  destruct (if link dg 2 =? 0 then let f := align f in update_link4 dg 2 (N.of_nat (length f)) f else Ok (f, dg))
    as [[fa dga]| |]; cbn [bind] in *; try discriminate.
  destruct (match ohl with Some hl => Ok (fa, hl) | None => write_hl 0 0 fa end) as [[fb hlb]| |];
    cbn [bind] in *; try discriminate.
  injection E as -> -> ->. rewrite E3. cbn [bind]. rewrite E4. cbn [bind]. rewrite E5. cbn [bind].
  eexists _, gs4. split; [reflexivity|]. cbn [st_file st_dg st_hl st_last].
  split; [|split; [exact M4|]].
  - split; [exact OW5|]. cbn [st_dg st_hl st_last st_file b_pos b_type b_len b_links]. split; [auto|]. split; [auto|]. split; [auto|]. 
    assert (LL : link (mkB (b_pos dg2) (b_type dg2) (b_len dg2) (set_nth (b_links dg2) 2 (N.of_nat (b_pos hl4)))) 2
                 = N.of_nat (b_pos hl4)).
    { unfold link. cbn [b_links]. rewrite link_set_nth by (destruct OW2; tauto). reflexivity. }
    split.
    + rewrite LL, J4, set_nth_twice. reflexivity.
    + exists l4, (length f4). split; [exact LL|]. split; [|exact LK4].
      eapply tail_frame; [exact T4|]. eapply agree_same; [exact S5|]. right.
      destruct OW2 as (_ & X1 & X2 & _). lia.
  - eapply quiet_trans; [exact Q2|]. eapply quiet_trans; [eapply agree_quiet; [exact A4|lia]|].
    rewrite <- J1. exact Q5.
Qed.

Section Run.
Variable deflate : list N -> list N.
Variable inflate : list N -> nat -> list N.
Hypothesis Z : zlib_ok deflate inflate.

(** What the chunks of a step are stored as. *)
Lemma step_made : forall full rest, Forall (fits deflate) (step_chunks full rest) ->
  Forall2 (made_from deflate) (step_blocks deflate full rest) (step_chunks full rest).
Proof.
  intros full rest F. unfold step_blocks, step_chunks in *. apply Forall_app in F as [F1 F2].
  assert (T : type_ok 2 [68; 84]).
  { split; [reflexivity|]. split; [|split; reflexivity]. intros [X|[X|[]]]; discriminate. }
  apply Forall2_app.
  - induction F1; constructor; auto. apply made_zip; auto; reflexivity.
  - destruct rest as [|c r]; [constructor|]. apply Forall_cons_iff in F2 as [F2 _]. constructor; [|constructor].
    destruct (100 <? N.of_nat (length (c :: r))).
    + apply made_zip; auto; reflexivity.
    + apply made_raw. left. reflexivity.
Qed.

Lemma step_blocks_length : forall full rest, length (step_blocks deflate full rest) = length (step_chunks full rest).
Proof.
  intros. unfold step_blocks, step_chunks. rewrite !app_length, map_length. destruct rest; reflexivity.
Qed.

(** Offsets of a step. *)
Definition off_after (off : N) (xs : list (list N)) : N := w64 (off + N.of_nat (length (concat xs))).

Lemma set_grow_end : forall l v, set_grow l (length l) v = l ++ [v].
Proof.
  intros. unfold set_grow. replace (S (length l) - length l)%nat with 1%nat by lia. cbn [repeat].
  induction l as [|x l IH]; [reflexivity|]. cbn [app length set_nth]. f_equal. exact IH.
Qed.

Lemma chunks_fold : forall xs d off, off + N.of_nat (length (concat xs)) < 2 ^ 64 -> 
  dl_flags (fst (fold_left (fun '(d, (i, off)) x =>
         (dl_set_offset i off d, (S i, w64 (off + N.of_nat (length x))))) xs (d, (length (dl_offs d), off))))
  = (match xs with [] => dl_flags d | _ => N.land (dl_flags d) 254 end) /\
  dl_equal (fst (fold_left (fun '(d, (i, off)) x =>
         (dl_set_offset i off d, (S i, w64 (off + N.of_nat (length x))))) xs (d, (length (dl_offs d), off))))
  = dl_equal d /\
  dl_offs (fst (fold_left (fun '(d, (i, off)) x =>
         (dl_set_offset i off d, (S i, w64 (off + N.of_nat (length x))))) xs (d, (length (dl_offs d), off))))
  = dl_offs d ++ starts off xs.
Proof.
  induction xs as [|x xs IH]; intros d off B.
  - cbn [fold_left fst starts]. rewrite app_nil_r. auto.
  - cbn [fold_left concat] in *. rewrite app_length in B.
    assert (W : w64 (off + N.of_nat (length x)) = off + N.of_nat (length x)) by (unfold w64; apply N.mod_small; lia).
    rewrite W.
    assert (EL : S (length (dl_offs d)) = length (dl_offs (dl_set_offset (length (dl_offs d)) off d))).
    { cbn [dl_set_offset dl_offs]. rewrite set_grow_end, app_length. cbn [length]. lia. }
    rewrite EL.
    specialize (IH (dl_set_offset (length (dl_offs d)) off d) (off + N.of_nat (length x)) ltac:(lia)).
    destruct IH as (I1 & I2 & I3). rewrite I1, I2, I3. cbn [dl_set_offset dl_offs dl_flags dl_equal starts].
    rewrite set_grow_end, <- app_assoc. split; [|split; auto].
    destruct xs; auto. rewrite <- N.land_assoc. f_equal.
Qed.

Lemma chunks_dl_spec : forall off xs, off + N.of_nat (length (concat xs)) < 2 ^ 64 ->
  dl_flags (chunks_dl off xs) = 0 /\ dl_equal (chunks_dl off xs) = 0 /\
  (xs = [] -> dl_offs (chunks_dl off xs) = [off]) /\
  (xs <> [] -> dl_offs (chunks_dl off xs) = starts off xs).
Proof.
  intros off xs B. destruct xs as [|x xs].
  - repeat split; auto. congruence.
  - unfold chunks_dl. cbn [fold_left].
    assert (E : dl_set_offset 0 off (dl_set_offset 0 off dl0) = mkDl 0 0 [off] [] [] []) by reflexivity.
    rewrite E. cbn [concat] in B. rewrite app_length in B.
    assert (W : w64 (off + N.of_nat (length x)) = off + N.of_nat (length x)) by (unfold w64; apply N.mod_small; lia).
    rewrite W.
    destruct (chunks_fold xs (mkDl 0 0 [off] [] [] []) (off + N.of_nat (length x)) ltac:(lia)) as (I1 & I2 & I3).
    cbn [dl_offs length dl_flags dl_equal] in I1, I2, I3.
    split; [rewrite I1; destruct xs; reflexivity|]. split; [exact I2|]. split; [congruence|].
    intros _. rewrite I3. reflexivity.
Qed.

Lemma starts_length : forall xs off, length (starts off xs) = length xs.
Proof. induction xs; intros; cbn [starts length]; auto. Qed.

Lemma starts_bound : forall xs off b, off + N.of_nat (length (concat xs)) < b -> Forall (fun o => o < b) (starts off xs).
Proof.
  induction xs as [|x xs IH]; intros off b B; cbn [starts concat] in *; constructor.
  - lia.
  - rewrite app_length in B. apply IH. lia.
Qed.

Lemma starts_app : forall a b off, starts off (a ++ b) = starts off a ++ starts (off + N.of_nat (length (concat a))) b.
Proof.
  induction a as [|x a IH]; intros b off; cbn [app starts concat length].
  - f_equal. lia.
  - rewrite IH, app_length. do 3 f_equal. lia.
Qed.

(** The groups of a history, stripped, are those of its steps. *)
Definition step_rel (off : N) (g : dl * list dblk) (xs : list (list N)) : Prop :=
  Forall2 (made_from deflate) (snd g) xs /\ length (snd g) = length xs /\
  dl_flags (fst g) = 0 /\ dl_equal (fst g) = 0 /\
  (xs = [] -> dl_offs (fst g) = [off]) /\ (xs <> [] -> dl_offs (fst g) = starts off xs).

Fixpoint steps_rel (off : N) (gs : list (dl * list dblk)) (xss : list (list (list N))) : Prop :=
  match gs, xss with
  | [], [] => True
  | g :: gs, xs :: xss => step_rel off g xs /\ steps_rel (off + N.of_nat (length (concat xs))) gs xss
  | _, _ => False
  end.

Lemma steps_rel_app : forall gs xss off g xs, steps_rel off gs xss ->
  step_rel (off + N.of_nat (length (concat (concat xss)))) g xs -> steps_rel off (gs ++ [g]) (xss ++ [xs]).
Proof.
  induction gs as [|g0 gs IH]; intros [|xs0 xss] off g xs H S; cbn [steps_rel app] in *; try contradiction.
  - split; auto. cbn [concat length] in S. cbn in S. rewrite N.add_0_r in S. exact S.
  - destruct H as [H1 H2]. split; auto. apply IH; auto.
    cbn [concat] in S. rewrite concat_app, app_length in S.
    replace (off + N.of_nat (length (concat xs0)) + N.of_nat (length (concat (concat xss))))
      with (off + N.of_nat (length (concat xs0) + length (concat (concat xss)))) by lia. exact S.
Qed.

Lemma steps_app : forall a b, steps (a ++ b) = steps a ++ steps b.
Proof. induction a as [|[]]; intros b; cbn [steps app]; rewrite ?IHa; auto. Qed.

Lemma drun_inv : forall ops lo dg0 s off gs done, sinv lo dg0 s gs ->
  Forall (poke_ok lo dg0) ops -> Forall (Forall (fits deflate)) (steps ops) ->
  N.of_nat (length (concat (concat (done ++ steps ops)))) < 2 ^ 64 ->
  off = N.of_nat (length (concat (concat done))) -> steps_rel 0 (map strip gs) done ->
  exists s' gs', drun deflate ops (s, off) = Ok (s', N.of_nat (length (concat (concat (done ++ steps ops))))) /\
    sinv lo dg0 s' gs' /\ steps_rel 0 (map strip gs') (done ++ steps ops).
Proof.
  induction ops as [|o ops IH]; intros lo dg0 s off gs done I P F B O R.
  - cbn [steps] in *. rewrite app_nil_r in *. exists s, gs. subst off. split; [reflexivity|]. auto.
  - apply Forall_cons_iff in P as [P1 P2]. cbn [drun]. destruct o as [full rest|bs|pos bs]; cbn [dstep steps] in *.
    + apply Forall_cons_iff in F as [F1 F2]. set (xs := step_chunks full rest) in *.
      assert (B2 : N.of_nat (length (concat (concat done))) + N.of_nat (length (concat xs)) < 2 ^ 64).
      { rewrite concat_app, concat_app, app_length in B. cbn [concat] in B. rewrite concat_app, app_length in B. lia. }
      destruct (store_dl_inv lo dg0 s gs (chunks_dl off xs) (step_blocks deflate full rest) I)
        as (s1 & gs1 & E1 & I1 & M1 & _).
      rewrite E1. cbn [bind].
      replace (done ++ xs :: steps ops) with ((done ++ [xs]) ++ steps ops) in * by (rewrite <- app_assoc; reflexivity).
      apply (IH lo dg0 s1 _ gs1 (done ++ [xs])); auto.
      * subst off. unfold w64. rewrite N.mod_small by lia. rewrite !concat_app, app_length. cbn [concat].
        rewrite app_nil_r. lia.
      * rewrite M1. apply steps_rel_app; auto. subst off.
        destruct (chunks_dl_spec (N.of_nat (length (concat (concat done)))) xs B2) as (C1 & C2 & C3 & C4).
        split; [apply step_made; auto|]. cbn [fst snd]. split; [apply step_blocks_length|].
        rewrite N.add_0_l. auto.
    + cbn [bind]. apply (IH lo dg0 _ off gs done); auto.
      destruct I as (OW & I1 & I2 & I3 & I4 & T). unfold sinv. cbn [st_file st_dg st_hl st_last].
      assert (LF : (lo <= length (st_file s))%nat) by (destruct OW as (_ & _ & _ & X & _); exact X).
      split; [eapply owner_frame; [exact OW|]; apply agree_app; auto|].
      split; [auto|]. split; [auto|]. split; [auto|]. split; [auto|].
      destruct (st_hl s); auto. destruct T as (l & hi & T1 & T2 & T3). exists l, hi. split; [auto|]. split; [|auto].
      eapply tail_frame; [exact T2|]. apply agree_app. auto.
    + cbn [bind]. apply (IH lo dg0 _ off gs done); auto.
      destruct I as (OW & I1 & I2 & I3 & I4 & T). unfold sinv. cbn [st_file st_dg st_hl st_last].
      destruct P1 as [P1 P3].
      destruct OW as (W1 & W2 & W3 & W4 & W5).
      assert (S : same_outside (st_file s) (put (st_file s) pos bs) pos (length bs)) by (apply put_same_outside; lia).
      assert (LE : length (b_links (st_dg s)) = length (b_links dg0)) by (rewrite I4; apply set_nth_length).
      split.
      { split; [auto|]. split; [auto|]. split; [auto|]. split; [destruct S; lia|].
        eapply holds_frame; [exact S|exact W5|]. rewrite header_bytes_length. lia. }
      split; [auto|]. split; [auto|]. split; [auto|]. split; [auto|].
      destruct (st_hl s); auto. destruct T as (l & hi & T1 & T2 & T3). exists l, hi. split; [auto|]. split; [|auto].
      eapply tail_frame; [exact T2|]. eapply agree_same; [exact S|]. auto.
Qed.

(** The offsets the reader finds. *)
Lemma steps_offsets : forall gs xss is f off, steps_rel off (map strip gs) xss ->
  Forall3 (grp_reads inflate f) gs xss is -> concat (map di_offs is) = starts off (concat xss) /\
  map di_nof is = map (fun xs => N.of_nat (length xs)) xss.
Proof.
  intros gs xss is f off S H. revert off S.
  induction H as [|[[b d] ks] xs i gs xss is R _ IH]; intros off S; [split; reflexivity|].
  cbn [map strip steps_rel concat] in *. destruct S as [(S1 & S2 & S3 & S4 & S5 & S6) S]. cbn [fst snd] in *.
  destruct R as (R1 & R2 & _ & R4 & _). destruct (IH _ S) as [I1 I2]. rewrite I1, I2, starts_app, R2, S2.
  split; [f_equal|reflexivity].
  rewrite S3 in R4. destruct (R4 eq_refl) as [_ RO]. rewrite RO, S2.
  destruct xs as [|x xs].
  - reflexivity.
  - rewrite S6 by discriminate. rewrite <- (starts_length (x :: xs) off). apply (map_nth_seq _ 0).
Qed.

Lemma steps_made : forall gs xss off, steps_rel off (map strip gs) xss ->
  off + N.of_nat (length (concat (concat xss))) < 2 ^ 63 ->
  Forall (fun xs => N.of_nat (length xs) < 2 ^ 32) xss ->
  Forall2 (grp_made deflate) gs xss.
Proof.
  induction gs as [|[[b d] ks] gs IH]; intros [|xs xss] off H B C; cbn [map strip steps_rel] in H; try contradiction;
    constructor.
  - destruct H as [(S1 & S2 & S3 & S4 & S5 & S6) H]. cbn [fst snd] in *. apply Forall_cons_iff in C as [C1 C2].
    cbn [concat] in B. rewrite concat_app, app_length in B.
    split; [|split; auto].
    + constructor; [rewrite S3; reflexivity|rewrite S4; reflexivity| |rewrite S2; auto].
      destruct xs as [|x xs]; [rewrite S5 by auto; constructor; [lia|constructor]|].
      rewrite S6 by discriminate. apply starts_bound. lia.
    + assert (BB : (length (concat xs) <= length (concat xs) + length (concat (concat xss)))%nat) by lia.
      assert (B3 : N.of_nat (length (concat xs)) < 2 ^ 63) by lia. clear - B3.
      induction xs as [|x xs IH]; constructor.
      * unfold small. cbn [concat] in B3. rewrite app_length in B3. lia.
      * apply IH. cbn [concat] in B3. rewrite app_length in B3. lia.
  - destruct H as [_ H]. apply Forall_cons_iff in C as [C1 C2]. eapply IH; eauto.
    cbn [concat] in B. rewrite concat_app, app_length in B. lia.
Qed.

(** Reading what a history has stored. *)
Lemma sinv_read : forall lo dg0 s gs xss fuel, sinv lo dg0 s gs ->
  N.of_nat (length (st_file s)) < 2 ^ 63 -> steps_rel 0 (map strip gs) xss ->
  N.of_nat (length (concat (concat xss))) < 2 ^ 63 -> Forall (fun xs => N.of_nat (length xs) < 2 ^ 32) xss ->
  plain_text (b_type dg0) -> (length (b_type dg0) <= 4)%nat -> b_len dg0 < 2 ^ 64 ->
  Forall (fun l => l < 2 ^ 64) (b_links dg0) -> (length xss + 2 < fuel)%nat ->
  exists l p is ds, read_header4 (st_file s) (b_pos dg0) =
      Ok (mkB (b_pos dg0) (b_type dg0) (b_len dg0) (set_nth (b_links dg0) 2 l), p) /\
    read_blocks fuel (st_file s) l = Some (Ok ds) /\
    all_bytes inflate (st_file s) ds = Ok (concat xss) /\
    map data_size ds = map (fun x => N.of_nat (length x)) (concat xss) /\
    (xss <> [] -> exists l', read_hl (st_file s) (N.to_nat l) = Ok l' /\
       read_dls fuel (st_file s) l' = Some (Ok is) /\
       concat (map di_blocks is) = ds /\ concat (map di_offs is) = starts 0 (concat xss) /\
       map di_nof is = map (fun xs => N.of_nat (length xs)) xss).
Proof.
  intros lo dg0 s gs xss fuel (OW & I1 & I2 & I3 & I4 & T) L R B C PT TL BL FL FU.
  pose proof (steps_made gs xss 0 R ltac:(lia) C) as M.
  destruct OW as (W1 & W2 & W3 & W4 & W5).
  assert (LD : link (st_dg s) 2 < 2 ^ 63).
  { destruct (st_hl s) as [hl|]; [|destruct T as (_ & _ & ->); reflexivity].
    destruct T as (l & hi & -> & (_ & X & _) & _). apply hl_at_range in X. lia. }
  assert (LL : length (b_links (st_dg s)) = length (b_links dg0)) by (rewrite I4; apply set_nth_length).
  exists (link (st_dg s) 2), (b_pos dg0 + (24 + 8 * length (b_links dg0)))%nat.
  rewrite I1 in W5. rewrite (read_header4_at (st_file s) (b_pos dg0) _ _ _ W5);
    [|rewrite I2; auto|rewrite I2; auto|rewrite I3; auto|lia|].
  2:{ rewrite I4. apply Forall_set_nth; auto. lia. }
  destruct (st_hl s) as [hl|].
  - destruct T as (l & hi & T1 & (T2 & T3 & T4 & T5) & T6). rewrite T1.
    pose proof (chain_link_bound _ _ _ _ _ _ T4 L T5 ltac:(reflexivity)) as LB.
    destruct (read_hl_at _ _ _ T3 L ltac:(lia)) as [RH RT].
    assert (HP : (0 < b_pos hl)%nat) by (destruct T3 as (? & ? & _ & _ & X & _); exact X).
    pose proof (hl_at_range _ _ _ T3) as RR.
    assert (P64 : pos64 (N.of_nat (b_pos hl)) = true)
      by (unfold pos64; apply andb_true_iff; split; apply N.ltb_lt; lia).
    assert (LG : length gs = length xss) by (clear - M; induction M; cbn [length]; auto).
    destruct fuel as [|fuel]; [lia|].
    destruct (read_blocks_chain deflate inflate Z gs xss _ _ l hi fuel T4 T5 L M ltac:(lia)) as (is & RD & G & RB).
    destruct (read_blocks_chain deflate inflate Z gs xss _ _ l hi (S fuel) T4 T5 L M ltac:(lia)) as (is' & RD' & G' & RB').
    pose proof (Forall3_blocks inflate _ _ _ _ G) as GB. pose proof (Forall3_blocks inflate _ _ _ _ G') as GB'.
    assert (EQ : concat (map di_blocks is') = concat (map di_blocks is)).
    { destruct (read_dls_at deflate inflate Z gs xss _ _ l hi (S fuel) T4 T5 L M ltac:(lia)) as (i0 & X & _).
      clear - RD RD'.
      assert (E : forall a b f l is is', read_dls a f l = Some (Ok is) -> read_dls b f l = Some (Ok is') -> is = is').
      { clear. induction a as [|a IH]; intros [|b] f l is is' H1 H2; try discriminate.
        rewrite read_dls_S in H1, H2. destruct (pos64 l); [|congruence].
        destruct (read_dl f (N.to_nat l)) as [d| |]; try discriminate.
        destruct (read_dls a f (di_next d)) as [[ds| |]|] eqn:E1; try discriminate.
        destruct (read_dls b f (di_next d)) as [[ds'| |]|] eqn:E2; try discriminate.
        injection H1 as <-. injection H2 as <-. f_equal. eapply IH; eauto. }
      rewrite (E _ _ _ _ _ _ RD RD'). reflexivity. }
    exists is', (concat (map di_blocks is)). split; [|split; [|split; [|split]]].
    + rewrite I2, I3, LL, I4, T1. reflexivity.
    + rewrite (read_blocks_hl fuel _ _ hl l P64 (Nat2N.id _) RT RH). exact RB.
    + apply good_all_bytes. exact GB.
    + clear - GB. induction GB as [|d x ds xs (D & _) _ IH]; cbn [map]; [reflexivity|]. rewrite D, IH. reflexivity.
    + intros _. exists l. rewrite Nat2N.id. split; [exact RH|]. split; [exact RD'|]. split; [exact EQ|].
      apply (steps_offsets gs xss is' (st_file s) 0); auto.
  - destruct T as (-> & T1 & T2). destruct xss as [|xs xss]; [|cbn [map steps_rel] in R; contradiction].
    rewrite T2. exists [], []. destruct fuel as [|fuel]; [lia|].
    split; [rewrite I2, I3, LL, I4, T2; reflexivity|]. split; [reflexivity|]. split; [reflexivity|]. split; [reflexivity|].
    congruence.
Qed.

End Run.
