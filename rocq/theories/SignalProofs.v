(** Proofs about signal data and about locating stream positions. *)
From Verif Require Import Base BlockModel BlockSpec BlockProofs BlockProofs2 BlockProofs3
  DataModel DataSpec TransProofs DataProofs ListProofs StoreProofs StoreProofs2.
From Coq Require Import Lia.
Local Open Scope N_scope.

(* ------------------------------------------------------------------ *)
(** ** Cutting in chunks *)

Lemma cut_chunks_concat : forall x m c, concat (cut_chunks m x c) = c ++ x.
Proof.
  induction x as [|a x IH]; intros m c; cbn [cut_chunks].
  - destruct c; cbn [concat app]; rewrite ?app_nil_r; auto.
  - destruct (m <? N.of_nat (length (c ++ [a])) + 1); cbn [concat]; rewrite IH.
    + cbn [app]. rewrite <- app_assoc. reflexivity.
    + rewrite <- app_assoc. reflexivity.
Qed.

Lemma even_cut_cons : forall m x r, 0 < m -> N.of_nat (length x) = m -> even_cut m r -> even_cut m (x :: r).
Proof.
  intros m x [|y r] M L E.
  - split; [intros ->; cbn in L; lia|lia].
  - split; auto.
Qed.

Lemma cut_chunks_even : forall x m c, 0 < m -> N.of_nat (length c) < m -> even_cut m (cut_chunks m x c).
Proof.
  induction x as [|a x IH]; intros m c M L; cbn [cut_chunks].
  - destruct c; [constructor|]. split; [discriminate|lia].
  - destruct (N.ltb_spec m (N.of_nat (length (c ++ [a])) + 1)) as [H|H]; rewrite app_length in *; cbn [length] in *.
    + apply even_cut_cons; [auto|rewrite app_length; cbn [length]; lia|apply IH; auto].
    + apply IH; auto. rewrite app_length. cbn [length]. lia.
Qed.

Lemma even_cut_count : forall m xs, 0 < m -> even_cut m xs ->
  (N.of_nat (length xs) - 1) * m <= N.of_nat (length (concat xs)).
Proof.
  intros m xs M. induction xs as [|x [|y r] IH]; intros E; [cbn; lia|cbn; lia|].
  destruct E as [E1 E2]. specialize (IH E2). cbn [concat] in *. rewrite app_length.
  cbn [length] in *. nia.
Qed.

Lemma even_cut_locate : forall m xs i, 0 < m -> even_cut m xs ->
  nth_error (concat xs) i = nth_error (nth (i / N.to_nat m) xs []) (i mod N.to_nat m).
Proof.
  intros m xs i M. revert i. induction xs as [|x r IH]; intros i E.
  - cbn [concat]. destruct (i / N.to_nat m)%nat; cbn [nth]; rewrite !(proj2 (nth_error_None [] _)); auto; cbn; lia.
  - destruct (Nat.lt_ge_cases i (N.to_nat m)) as [C|C].
    + rewrite Nat.div_small, Nat.mod_small by auto. cbn [nth concat]. destruct r as [|y r].
      * cbn [concat]. rewrite app_nil_r. reflexivity.
      * destruct E as [E _]. apply nth_error_app1. lia.
    + replace i with (i - N.to_nat m + 1 * N.to_nat m)%nat at 2 3 by lia.
      rewrite Nat.div_add, Nat.mod_add by lia.
      replace (nth ((i - N.to_nat m) / N.to_nat m + 1) (x :: r) []) with (nth ((i - N.to_nat m) / N.to_nat m) r [])
        by (rewrite Nat.add_1_r; reflexivity).
      destruct r as [|y r].
      * cbn [concat]. destruct E as [_ E]. rewrite app_nil_r.
        replace (nth ((i - N.to_nat m) / N.to_nat m) [] ([] : list N)) with ([] : list N) by (destruct ((i - N.to_nat m) / N.to_nat m)%nat; reflexivity).
        rewrite !(proj2 (nth_error_None _ _)); auto; cbn; lia.
      * destruct E as [E1 E2]. rewrite <- (IH _ E2). cbn [concat]. rewrite nth_error_app2 by lia. f_equal. lia.
Qed.

Lemma pieces_sub : forall xs (y : list N), In y xs -> exists a b, concat xs = a ++ y ++ b.
Proof.
  induction xs as [|x xs IH]; intros y IN; [destruct IN|]. destruct IN as [->|IN].
  - exists [], (concat xs). reflexivity.
  - destruct (IH y IN) as (a & b & E). exists (x ++ a), b. cbn [concat]. rewrite E, <- app_assoc. reflexivity.
Qed.

(* ------------------------------------------------------------------ *)
(** ** Locating by offsets *)

Lemma entry_below : forall xs off x, x < off -> entry (starts off xs) x = None.
Proof.
  intros [|y xs] off x H; cbn [starts entry]; auto. destruct (N.leb_spec off x); [lia|auto].
Qed.

Lemma entry_locate : forall xs off x, off <= x < off + N.of_nat (length (concat xs)) ->
  exists k s, entry (starts off xs) x = Some k /\ nth_error (starts off xs) k = Some s /\ s <= x /\
    x < s + N.of_nat (length (nth k xs [])) /\
    nth_error (concat xs) (N.to_nat (x - off)) = nth_error (nth k xs []) (N.to_nat (x - s)).
Proof.
  induction xs as [|y xs IH]; intros off x H; cbn [starts concat entry] in *; [cbn in H; lia|].
  rewrite app_length in H. destruct (N.leb_spec off x); [|lia].
  destruct (N.lt_ge_cases x (off + N.of_nat (length y))) as [C|C].
  - rewrite entry_below by auto. exists 0%nat, off. split; [auto|]. split; [auto|]. split; [auto|]. split; [cbn; lia|].
    cbn [nth]. apply nth_error_app1. lia.
  - destruct (IH (off + N.of_nat (length y)) x ltac:(lia)) as (k & s & E1 & E2 & E3 & E4 & E5).
    rewrite E1. exists (S k), s. split; [auto|]. split; [auto|]. split; [auto|]. split; [auto|].
    cbn [nth]. rewrite <- E5. rewrite nth_error_app2 by lia. f_equal. lia.
Qed.

(* ------------------------------------------------------------------ *)
(** ** Signal data *)

Section Signal.
Variable deflate : list N -> list N.
Variable inflate : list N -> nat -> list N.
Hypothesis Z : zlib_ok deflate inflate.

Lemma read_good : forall f ds xs fuel l, read_blocks fuel f l = Some (Ok ds) ->
  Forall2 (good inflate f) ds xs -> N.of_nat (length (concat xs)) < 2 ^ 64 ->
  read_signal inflate fuel f l = Some (Ok (concat xs)).
Proof.
  intros f ds xs fuel l R G L. unfold read_signal. rewrite R. cbn [bind].
  rewrite (good_sizes inflate ds xs f G L). unfold w64. rewrite N.mod_small by auto. rewrite Nat2N.id.
  pose proof (good_copy inflate ds xs f [] G L) as C. cbn [app length] in C. change (N.of_nat 0) with 0 in C.
  rewrite C. reflexivity.
Qed.

Lemma read_blocks_one : forall f p d k, reads_as f p d -> pos64 (N.of_nat p) = true ->
  read_blocks (S k) f (N.of_nat p) = Some (Ok [d]).
Proof.
  intros f p d k R P. cbn [read_blocks]. rewrite P, Nat2N.id.
  destruct R as [[E1 E2]|[E1 [E2 E3]]]; rewrite E1; [rewrite E2|rewrite E2, E3]; reflexivity.
Qed.

(** Writing one block and setting the link. *)
Lemma signal_one : forall k x cn li lo f, owner_ok f cn li lo -> made_from deflate k x ->
  N.of_nat (length x) < 2 ^ 63 ->
  exists f1 b f2, write_dblk k f = Ok (f1, b) /\
    let cn2 := mkB (b_pos cn) (b_type cn) (b_len cn) (set_nth (b_links cn) li (N.of_nat (b_pos b))) in
    update_link4 cn li (N.of_nat (b_pos b)) f1 = Ok (f2, cn2) /\
    owner_ok f2 cn2 li lo /\ quiet lo (b_pos cn) li f f2 /\
    (forall fuel, N.of_nat (length f2) < 2 ^ 63 -> (0 < fuel)%nat ->
       read_signal inflate fuel f2 (link cn2 li) = Some (Ok x)).
Proof.
  intros k x cn li lo f OW M LX. pose proof OW as (W1 & W2 & W3 & W4 & W5).
  assert (LF : (0 < length f)%nat) by lia.
  rewrite (write_dblk_spec k f LF). set (p := (length f + pad8 (length f))%nat).
  set (f1 := f ++ repeat 0 (pad8 (length f)) ++ header_bytes (dblk_type k) (N.of_nat (24 + length (dblk_body k))) [] ++ dblk_body k).
  assert (A1 : agree f f1 0 (length f)) by (apply agree_app; lia).
  assert (D1 : dblk_at f1 p k).
  { split; [unfold p; lia|]. unfold f1. rewrite app_assoc.
    pose proof (holds_end (f ++ repeat 0 (pad8 (length f)))
      (header_bytes (dblk_type k) (N.of_nat (24 + length (dblk_body k))) [] ++ dblk_body k) []) as X.
    rewrite app_nil_r in X. rewrite app_length, repeat_length in X. exact X. }
  assert (OW1 : owner_ok f1 cn li lo) by (eapply owner_frame; [exact OW|]; eapply agree_sub; [exact A1| |]; lia).
  destruct (owner_relink f1 cn li lo (N.of_nat p) OW1) as (f2 & E2 & OW2 & S2 & Q2).
  eexists f1, _, f2. split; [reflexivity|]. cbn [b_pos]. split; [exact E2|]. split; [exact OW2|]. split.
  - eapply quiet_trans; [eapply agree_quiet; [exact A1|lia]|exact Q2].
  - intros fuel L FU. unfold link. cbn [b_links]. rewrite link_set_nth, Nat.eqb_refl by auto.
    assert (D2 : dblk_at f2 p k).
    { eapply dblk_at_frame; [eapply (agree_same f1 f2 _ _ p (dblk_end p k) S2)| | |exact D1]; auto.
      right. unfold p. lia. }
    destruct (dblk_read deflate inflate Z f2 p k x M D2 L LX) as (d & R & G1 & G2 & G3).
    destruct fuel as [|fuel]; [lia|].
    replace x with (concat [x]) by (cbn; apply app_nil_r). eapply read_good.
    + apply read_blocks_one; [exact R|]. eapply pos64_pos; eauto.
    + constructor; [split; auto|constructor].
    + cbn [concat]. rewrite app_nil_r. lia.
Qed.

Lemma owner_back : forall f b li lo v, owner_ok f b li lo -> 
  (let b' := mkB (b_pos b) (b_type b) (b_len b) (set_nth (b_links b) li v) in link b' li = v).
Proof.
  intros f b li lo v (_ & W & _). cbn. unfold link. cbn [b_links]. rewrite link_set_nth, Nat.eqb_refl by auto. reflexivity.
Qed.

Theorem signal_round_trip : forall m compress li x cn lo f, 0 < m -> owner_ok f cn li lo ->
  (forall a y b, x = a ++ y ++ b -> fits deflate y) -> N.of_nat (length x) < 2 ^ 63 ->
  N.of_nat (length x) / m < 2 ^ 32 - 2 -> m < 2 ^ 64 ->
  exists f' l, write_signal deflate m compress li x cn f =
      Ok (f', mkB (b_pos cn) (b_type cn) (b_len cn) (set_nth (b_links cn) li l)) /\
    quiet lo (b_pos cn) li f f' /\
    owner_ok f' (mkB (b_pos cn) (b_type cn) (b_len cn) (set_nth (b_links cn) li l)) li lo /\
    (forall fuel, N.of_nat (length f') < 2 ^ 63 -> (4 <= fuel)%nat ->
       read_signal inflate fuel f' l = Some (Ok x)).
Proof.
  intros m compress li x cn lo f M OW F LX LN MB.
  assert (T : type_ok 2 [83; 68]).
  { split; [reflexivity|]. split; [|split; reflexivity]. intros [X|[X|[]]]; discriminate. }
  assert (FX : fits deflate x) by (apply (F [] x []); rewrite app_nil_r; reflexivity).
  unfold write_signal. destruct x as [|c r].
  - destruct (owner_relink f cn li lo 0 OW) as (f' & E & OW' & S & Q). exists f', 0. split; [exact E|].
    split; [exact Q|]. split; [exact OW'|]. intros [|fuel] L FU; [lia|]. reflexivity.
  - set (x := c :: r) in *.
    destruct (negb compress || (N.of_nat (length x) <=? 100)).
    { destruct (signal_one (BRaw ty_sd x) x cn li lo f OW) as (f1 & b & f2 & E1 & E2 & O2 & Q2 & R2); auto.
      { apply made_raw. cbn. auto 10. }
      rewrite E1. cbn [bind]. rewrite E2. exists f2, (N.of_nat (b_pos b)). split; [reflexivity|]. split; [auto|].
      split; [auto|]. intros fuel L FU. specialize (R2 fuel L ltac:(lia)).
      rewrite (owner_back f cn li lo (N.of_nat (b_pos b)) OW) in R2. exact R2. }
    destruct (N.of_nat (length x) <=? m) eqn:LM.
    { destruct (signal_one (BZip (dz_pack deflate [83; 68] 0 0 x)) x cn li lo f OW) as (f1 & b & f2 & E1 & E2 & O2 & Q2 & R2); auto.
      { apply made_zip; auto; reflexivity. }
      rewrite E1. cbn [bind]. rewrite E2. exists f2, (N.of_nat (b_pos b)). split; [reflexivity|]. split; [auto|].
      split; [auto|]. intros fuel L FU. specialize (R2 fuel L ltac:(lia)).
      rewrite (owner_back f cn li lo (N.of_nat (b_pos b)) OW) in R2. exact R2. }
    pose proof OW as (W1 & W2 & W3 & W4 & W5).
    set (xs := cut_chunks m x []). set (ks := map (fun c => BZip (dz_pack deflate [83; 68] 0 0 c)) xs).
    assert (CX : concat xs = x) by (unfold xs; rewrite cut_chunks_concat; reflexivity).
    assert (EV : even_cut m xs) by (apply cut_chunks_even; auto).
    assert (NK : length ks = length xs) by (unfold ks; apply map_length).
    assert (NB : N.of_nat (length xs) < 2 ^ 32).
    { pose proof (even_cut_count m xs M EV) as C. rewrite CX in C.
      assert (D : N.of_nat (length xs) - 1 <= N.of_nat (length x) / m).
      { apply N.div_le_lower_bound; [lia|]. lia. }
      lia. }
    assert (MF : Forall2 (made_from deflate) ks xs).
    { assert (FF : Forall (fits deflate) xs).
      { apply Forall_forall. intros y IN. destruct (pieces_sub xs y IN) as (a & b & E). rewrite CX in E. eauto. }
      clear - FF T. unfold ks. induction FF; cbn [map]; constructor; auto. apply made_zip; auto; reflexivity. }
    assert (SM : Forall small xs).
    { apply Forall_forall. intros y IN. destruct (pieces_sub xs y IN) as (a & b & E). rewrite CX in E.
      unfold small. rewrite E, !app_length in LX. lia. }
    destruct (write_hl_spec 1 0 f ltac:(lia) ltac:(reflexivity) ltac:(reflexivity)) as (f1 & hl & E1 & H1 & P1 & L1 & A1).
    rewrite E1. cbn [bind]. set (d := dl_set_equal m (mkDl 1 0 [] [] [] [])).
    assert (TO : tail_ok f1 lo hl 0 [] (b_pos hl + 40)).
    { split; [lia|]. split; [exact H1|]. split; [|lia]. cbn [chain]. auto. }
    destruct (tail_append f1 lo hl 0 [] (b_pos hl + 40) None d ks ltac:(lia) TO eq_refl)
      as (f2 & db & f3 & hl3 & l3 & gs3 & E2 & E3 & T3 & LK3 & M3 & A3 & P3).
    rewrite E2. cbn [bind] in *.
    destruct (update_link4 hl 0 (N.of_nat (b_pos db)) f2) as [[fa hla]| |]; cbn [bind] in *; try discriminate.
    injection E3 as -> ->.
    assert (OW3 : owner_ok f3 cn li lo).
    { eapply owner_frame; [exact OW|]. eapply agree_trans; [eapply agree_sub; [exact A1| |]; lia|exact A3]. }
    destruct (owner_relink f3 cn li lo (N.of_nat (b_pos hl3)) OW3) as (f4 & E4 & OW4 & S4 & Q4).
    rewrite E4. exists f4, (N.of_nat (b_pos hl3)). split; [reflexivity|]. split.
    { eapply quiet_trans; [eapply agree_quiet; [exact A1|lia]|].
      eapply quiet_trans; [eapply agree_quiet; [exact A3|lia]|exact Q4]. }
    split; [exact OW4|]. intros fuel L FU.
    assert (T4 : tail_ok f4 lo hl3 l3 gs3 (length f3)).
    { eapply tail_frame; [exact T3|]. eapply agree_same; [exact S4|]. right. lia. }
    destruct T4 as (X1 & X2 & X3 & X4).
    pose proof (chain_link_bound _ _ _ _ _ _ X3 L X4 ltac:(reflexivity)) as LB.
    destruct (read_hl_at _ _ _ X2 L ltac:(lia)) as [RH RT].
    assert (HP : (0 < b_pos hl3)%nat) by (destruct X2 as (? & ? & _ & _ & X & _); exact X).
    pose proof (hl_at_range _ _ _ X2) as RR.
    assert (P64 : pos64 (N.of_nat (b_pos hl3)) = true)
      by (unfold pos64; apply andb_true_iff; split; apply N.ltb_lt; lia).
    destruct fuel as [|fuel]; [lia|].
    assert (GM : Forall2 (grp_made deflate) gs3 [xs]).
    { destruct gs3 as [|[[b0 d0] ks0] [|g1 gs3]]; try discriminate M3. cbn [map strip app] in M3.
      injection M3 as -> ->. constructor; [|constructor]. split; [|split; auto].
      constructor; [unfold d, dl_set_equal; cbn [dl_flags]; try (destruct (0 <? m)); reflexivity|exact MB|constructor|rewrite NK; exact NB]. }
    assert (LG : length gs3 = 1%nat).
    { destruct gs3 as [|? [|? ?]]; try discriminate M3. reflexivity. }
    destruct (read_blocks_chain deflate inflate Z gs3 [xs] f4 _ l3 (length f3) fuel X3 X4 L GM ltac:(lia))
      as (is & RD & G & RB).
    pose proof (Forall3_blocks inflate _ _ _ _ G) as GB. cbn [concat] in GB. rewrite app_nil_r in GB.
    rewrite <- CX. eapply read_good; [|exact GB|rewrite CX; lia].
    rewrite (read_blocks_hl fuel f4 _ hl3 l3 P64 (Nat2N.id _) RT RH). exact RB.
Qed.

(** The equal length stored in the list locates the pieces. *)
Lemma signal_pieces : forall m x, 0 < m -> concat (cut_chunks m x []) = x /\ even_cut m (cut_chunks m x []).
Proof. intros. split; [apply cut_chunks_concat|]. apply cut_chunks_even; auto. Qed.

End Signal.
