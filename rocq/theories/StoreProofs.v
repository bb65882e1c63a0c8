(** Proofs about reading DL and HL blocks, and histories of a data group written compressed. *)
From Verif Require Import Base BlockModel BlockSpec BlockProofs BlockProofs2 BlockProofs3
  DataModel DataSpec TransProofs DataProofs ListProofs.
From Coq Require Import Lia.
Local Open Scope N_scope.

Section Store.
Variable deflate : list N -> list N.
Variable inflate : list N -> nat -> list N.
Hypothesis Z : zlib_ok deflate inflate.

(** The block read as [d] has the bytes [x]. *)
Definition good (f : file) (d : dinfo) (x : list N) : Prop :=
  data_size d = N.of_nat (length x) /\ block_bytes inflate f d = Ok x /\
  (forall dest idx, idx + N.of_nat (length x) <= N.of_nat (length dest) ->
     N.of_nat (length dest) < 2 ^ 64 ->
     copy_block inflate f d (dest, idx) = Ok (put dest (N.to_nat idx) x, idx + N.of_nat (length x))).

Definition small (x : list N) : Prop := N.of_nat (length x) < 2 ^ 63.

Lemma pos64_pos : forall f p k, dblk_at f p k -> N.of_nat (length f) < 2 ^ 63 -> pos64 (N.of_nat p) = true.
Proof.
  intros f p k D L. pose proof (dblk_at_range _ _ _ D) as R. destruct D as [P _].
  unfold dblk_end in R. unfold pos64. apply andb_true_iff. split; apply N.ltb_lt; lia.
Qed.

Lemma read_link_list_at : forall ps ks xs f lo hi, blocks_at f lo ps ks hi ->
  N.of_nat (length f) < 2 ^ 63 -> Forall2 (made_from deflate) ks xs -> Forall small xs ->
  exists ds, read_link_list f (map N.of_nat ps) = Ok ds /\ Forall2 (good f) ds xs.
Proof.
  induction ps as [|p ps IH]; intros [|k ks] xs f lo hi B L M S; cbn [blocks_at] in B; try contradiction.
  - inversion M; subst. exists []. split; [reflexivity|constructor].
  - inversion M as [|? x ? xs' M1 M2]; subst. apply Forall_cons_iff in S as [S1 S2].
    destruct B as (_ & DA & B). destruct (IH ks xs' f _ hi B L M2 S2) as (ds & R & G).
    destruct (dblk_read deflate inflate Z f p k x M1 DA L S1) as (d & RA & D1 & D2 & D3).
    exists (d :: ds). split; [|constructor; auto; split; auto].
    cbn [map read_link_list]. rewrite (pos64_pos f p k DA L), Nat2N.id, R.
    destruct RA as [[E1 E2]|[E1 [E2 E3]]]; rewrite E1; [rewrite E2|rewrite E2, E3]; reflexivity.
Qed.

Record dl_fine (d : dl) (n : nat) : Prop := {
  df_flags : dl_flags d < 256;
  df_equal : dl_equal d < 2 ^ 64;
  df_offs : Forall (fun o => o < 2 ^ 64) (dl_offs d);
  df_n : N.of_nat n < 2 ^ 32
}.

Lemma numbers_read : forall n l f pos, holds f pos (numbers n l) -> Forall (fun o => o < 2 ^ 64) l ->
  read_links false 8 n f pos = Ok (map (fun i => nth i l 0) (seq 0 n), (pos + 8 * n)%nat).
Proof.
  intros n l f pos H F.
  pose proof (read_links_any false 8 (map (fun i => nth i l 0) (seq 0 n)) f pos) as R.
  rewrite map_length, seq_length in R. apply R.
  - unfold numbers in H. rewrite map_map. exact H.
  - apply Forall_forall. intros x IN. apply in_map_iff in IN as (i & <- & _).
    change (256 ^ N.of_nat 8) with (2 ^ 64).
    destruct (nth_in_or_default i l 0) as [IN| ->]; [|reflexivity].
    rewrite Forall_forall in F. auto.
Qed.

(** The DL block as read. *)
Definition dl_reads (d : dl) (ks : list dblk) (xs : list (list N)) (next : N) (f : file) (i : dlinfo) : Prop :=
  di_flags i = dl_flags d /\ di_nof i = N.of_nat (length ks) /\
  (N.testbit (dl_flags d) 0 = true -> di_equal i = dl_equal d /\ di_offs i = []) /\
  (N.testbit (dl_flags d) 0 = false ->
   di_equal i = 0 /\ di_offs i = map (fun j => nth j (dl_offs d) 0) (seq 0 (length ks))) /\
  di_next i = next /\ Forall2 (good f) (di_blocks i) xs.

Lemma read_dl_at : forall f b d ks xs hi, dl_at f b d ks hi -> dl_fine d (length ks) ->
  N.of_nat (length f) < 2 ^ 63 -> (hi <= length f)%nat -> link b 0 < 2 ^ 64 ->
  Forall2 (made_from deflate) ks xs -> Forall small xs ->
  exists i, read_dl f (b_pos b) = Ok i /\ dl_reads d ks xs (link b 0) f i.
Proof.
  intros f b d ks xs hi D [F1 F2 F3 F4] L HI LK M S.
  pose proof (dl_at_range _ _ _ _ _ D) as R.
  destruct D as (ps & P & T & N & E & H & B).
  pose proof (blocks_at_range _ _ _ _ _ B) as [_ LP].
  destruct (read_link_list_at ps ks xs f _ hi B L M S) as (ds & RL & G).
  apply holds_app in H as [Hh Hb]. rewrite header_bytes_length in Hb.
  assert (LL : length (b_links b) = (1 + length ks)%nat) by (rewrite E; cbn [length]; rewrite map_length; lia).
  assert (FL : Forall (fun l => l < 2 ^ 64) (b_links b)).
  { rewrite E. constructor; auto. revert B. generalize (b_pos b + dl_size d (length ks))%nat as lo.
    intros lo B. clear - B L. revert lo ks B. induction ps as [|p ps IH]; intros lo [|k ks] B; cbn [blocks_at map] in *; try contradiction; constructor.
    - destruct B as (_ & B & _). apply dblk_at_range in B. unfold dblk_end in B. lia.
    - destruct B as (_ & _ & B). eapply IH; eauto. }
  unfold read_dl. rewrite (read_header4_at f (b_pos b) (b_type b) (b_len b) (b_links b)); auto;
    [|rewrite T; apply four_plain; repeat split; discriminate|rewrite T; cbn; lia|unfold dl_size in *; lia|lia].
  replace (mkB (b_pos b) (b_type b) (b_len b) (b_links b)) with b by (destruct b; reflexivity).
  cbn [bind]. replace (b_pos b + (24 + 8 * length (b_links b)))%nat with (b_pos b + 24 + 8 * length (b_links b))%nat by lia.
  unfold dl_body in Hb. set (p0 := (b_pos b + 24 + 8 * length (b_links b))%nat) in *.
  replace (b_pos b + (24 + 8 * length (b_links b)))%nat with p0 in Hb by (unfold p0; lia).
  apply holds_app in Hb as [B1 Hb]. rewrite le_bytes_length in Hb.
  apply holds_app in Hb as [B2 Hb]. rewrite repeat_length in Hb.
  apply holds_app in Hb as [B3 Hb]. rewrite le_bytes_length in Hb.
  apply holds_app in Hb as [B4 _].
  rewrite (read_num_le _ _ 1 (dl_flags d)) by auto. cbn [bind].
  rewrite (read_num_le _ _ 4 (N.of_nat (length ks))) by auto. cbn [bind]. rewrite Nat2N.id.
  assert (LS : map (fun i => link b (1 + i)) (seq 0 (length ks)) = map N.of_nat ps).
  { unfold link. rewrite E. rewrite <- LP. rewrite <- (map_length N.of_nat ps). apply link_list_nth. }
  destruct (N.testbit (dl_flags d) 0) eqn:TB.
  - rewrite (read_num_le _ _ 8 (dl_equal d)) by auto. cbn [bind]. rewrite LS, RL. cbn [bind].
    eexists. split; [reflexivity|]. unfold dl_reads. cbn. rewrite TB.
    repeat split; auto; intros; discriminate.
  - rewrite (numbers_read _ _ _ _ B4 F3). cbn [bind]. rewrite LS, RL. cbn [bind].
    eexists. split; [reflexivity|]. unfold dl_reads. cbn [di_flags di_nof di_equal di_offs di_next di_blocks]. rewrite TB.
    repeat split; auto; intros; discriminate.
Qed.

Lemma read_dls_S : forall k f l, read_dls (S k) f l =
  if pos64 l then
    match read_dl f (N.to_nat l) with
    | Ok d => match read_dls k f (di_next d) with
              | Some (Ok ds) => Some (Ok (d :: ds)) | x => x end
    | Fail => Some Fail | UB => Some UB end
  else Some (Ok []).
Proof. reflexivity. Qed.

(** A chain of groups and their bytes. *)
Definition grp_made (g : grp) (xs : list (list N)) : Prop :=
  let '(b, d, ks) := g in dl_fine d (length ks) /\ Forall2 (made_from deflate) ks xs /\ Forall small xs.

Definition grp_reads (f : file) (g : grp) (xs : list (list N)) (i : dlinfo) : Prop :=
  let '(b, d, ks) := g in dl_reads d ks xs (link b 0) f i.

Inductive Forall3 (A B C : Type) (R : A -> B -> C -> Prop) : list A -> list B -> list C -> Prop :=
| F3nil : Forall3 A B C R [] [] []
| F3cons : forall a b c la lb lc, R a b c -> Forall3 A B C R la lb lc ->
    Forall3 A B C R (a :: la) (b :: lb) (c :: lc).
Arguments Forall3 {A B C} R _ _ _.

Lemma chain_link_bound : forall gs f lo l hi n, chain f lo l gs hi n -> N.of_nat (length f) < 2 ^ 63 ->
  (hi <= length f)%nat -> n < 2 ^ 63 -> l < 2 ^ 63.
Proof.
  intros [|[[b d] ks] gs] f lo l hi n H L HI NB; cbn [chain] in H.
  - destruct H as [_ ->]. auto.
  - destruct H as (mid & _ & -> & D & C). apply dl_at_range in D. apply chain_range in C. lia.
Qed.

Lemma read_dls_at : forall gs xss f lo l hi fuel, chain f lo l gs hi 0 -> (hi <= length f)%nat ->
  N.of_nat (length f) < 2 ^ 63 -> Forall2 grp_made gs xss -> (length gs < fuel)%nat ->
  exists is, read_dls fuel f l = Some (Ok is) /\ Forall3 (grp_reads f) gs xss is.
Proof.
  induction gs as [|[[b d] ks] gs IH]; intros xss f lo l hi fuel H HI L M F;
    (destruct fuel as [|fuel]; [lia|]); rewrite read_dls_S; cbn [chain length] in *.
  - inversion M; subst. destruct H as [_ ->]. exists []. split; [reflexivity|constructor].
  - inversion M as [|? xs ? xss' M0 MM]; subst. cbn [grp_made] in M0. destruct M0 as (M1 & M2 & M3).
    destruct H as (mid & A & -> & D & C).
    pose proof (chain_range _ _ _ _ _ _ C) as RC. pose proof (dl_at_range _ _ _ _ _ D) as RD.
    pose proof (chain_link_bound _ _ _ _ _ _ C L HI ltac:(reflexivity)) as LB.
    destruct (read_dl_at f b d ks xs mid D M1 L ltac:(lia) ltac:(lia) M2 M3) as (i & R & G).
    pose proof D as (ps & P & _).
    replace (pos64 (N.of_nat (b_pos b))) with true
      by (symmetry; unfold pos64; apply andb_true_iff; split; apply N.ltb_lt; lia).
    rewrite Nat2N.id, R. destruct G as (G1 & G2 & G3 & G4 & G5 & G6). rewrite G5.
    destruct (IH xss' f mid (link b 0) hi fuel C HI L MM ltac:(lia)) as (is & RI & GI).
    rewrite RI. exists (i :: is). split; [reflexivity|]. constructor; auto.
    split; [auto|]. split; [auto|]. split; [auto|]. split; [auto|]. auto.
Qed.

(* ------------------------------------------------------------------ *)
(** ** HL block *)

Definition hl_body (flags type : N) : list N := le_bytes 2 flags ++ le_bytes 1 type ++ repeat 0 5.

Definition hl_at (f : file) (b : blk) (l : N) : Prop :=
  exists flags type, flags < 2 ^ 16 /\ type < 256 /\ (0 < b_pos b)%nat /\ b = mkB (b_pos b) ty_hl 40 [l] /\
    holds f (b_pos b) (header_bytes ty_hl 40 [l] ++ hl_body flags type).

Lemma write_hl_spec : forall flags type f, (0 < length f)%nat -> flags < 2 ^ 16 -> type < 256 ->
  exists f' b, write_hl flags type f = Ok (f', b) /\ hl_at f' b 0 /\
    (length f <= b_pos b)%nat /\ length f' = (b_pos b + 40)%nat /\ agree f f' 0 (length f).
Proof.
  intros flags type f L F T. unfold write_hl. rewrite write_block4_spec by auto.
  fold (hl_body flags type). set (p := (length f + pad8 (length f))%nat).
  assert (HB : length (hl_body flags type) = 8%nat).
  { unfold hl_body. rewrite !app_length, !le_bytes_length, repeat_length. reflexivity. }
  rewrite HB. change (N.of_nat (24 + 8 * length [0] + 8)) with 40.
  eexists _, _. split; [reflexivity|]. cbn [b_pos]. split; [|split; [|split]].
  - exists flags, type. split; [auto|]. split; [auto|]. split; [cbn; unfold p; lia|]. split; [reflexivity|].
    cbn [b_pos]. rewrite app_assoc.
    pose proof (holds_end (f ++ repeat 0 (pad8 (length f))) (header_bytes ty_hl 40 [0] ++ hl_body flags type) []) as X.
    rewrite app_nil_r in X. rewrite app_length, repeat_length in X. exact X.
  - unfold p. lia.
  - rewrite !app_length, repeat_length, header_bytes_length, HB. cbn [length]. unfold p. lia.
  - apply agree_app. lia.
Qed.

Lemma hl_at_range : forall f b l, hl_at f b l -> (b_pos b + 40 <= length f)%nat.
Proof.
  intros f b l (flags & type & _ & _ & _ & _ & [H _]). rewrite app_length, header_bytes_length in H.
  unfold hl_body in H. rewrite !app_length, !le_bytes_length, repeat_length in H. cbn [length] in H. lia.
Qed.

Lemma hl_at_frame : forall f f' b l lo, hl_at f b l -> (lo <= b_pos b)%nat -> agree f f' lo (b_pos b + 40) ->
  hl_at f' b l.
Proof.
  intros f f' b l lo (flags & type & A & B & C & D & H) L AG.
  exists flags, type. split; [auto|]. split; [auto|]. split; [auto|]. split; [auto|].
  eapply agree_holds; eauto.
Qed.

Lemma hl_relink : forall f b l v, hl_at f b l ->
  exists f' b', update_link4 b 0 v f = Ok (f', b') /\ b_pos b' = b_pos b /\ hl_at f' b' v /\
    same_outside f f' (b_pos b + 24) 8.
Proof.
  intros f b l v (flags & type & A & B & C & D & H).
  pose proof H as H0. apply holds_app in H0 as [Hh Hb].
  assert (HH : holds f (b_pos b) (header_bytes (b_type b) (b_len b) (b_links b))) by (rewrite D; exact Hh).
  assert (LL : (0 < length (b_links b))%nat) by (rewrite D; cbn; lia).
  destruct (update_link4_spec b 0 v f C LL HH) as (f' & E & S & H').
  rewrite Nat.mul_0_r, Nat.add_0_r in S.
  eexists f', _. split; [exact E|]. cbn [b_pos]. split; [auto|]. split; [|exact S].
  exists flags, type. split; [auto|]. split; [auto|]. split; [cbn; auto|]. split.
  - rewrite D. reflexivity.
  - cbn [b_pos]. apply holds_put_head.
    + rewrite D in H'. exact H'.
    + eapply holds_frame; [exact S|exact Hb|]. rewrite header_bytes_length. cbn [length]. lia.
Qed.

Lemma read_hl_at : forall f b l, hl_at f b l -> N.of_nat (length f) < 2 ^ 63 -> l < 2 ^ 64 ->
  read_hl f (b_pos b) = Ok l /\ read_type f (b_pos b) = [72; 76].
Proof.
  intros f b l (flags & type & A & B & C & D & H) L LB.
  apply holds_app in H as [Hh Hb]. rewrite header_bytes_length in Hb. cbn [length] in Hb.
  assert (T2 : two_ok 72 76) by (repeat split; discriminate).
  split; [|apply (read_type_at _ _ _ _ _ _ T2 Hh)].
  unfold read_hl. rewrite (read_header4_at f (b_pos b) ty_hl 40 [l]); auto;
    [|apply four_plain; auto|cbn; lia|reflexivity].
  cbn [bind length]. unfold hl_body in Hb.
  apply holds_app in Hb as [H1 Hb]. rewrite le_bytes_length in Hb.
  apply holds_app in Hb as [H2 Hb]. rewrite le_bytes_length in Hb.
  rewrite (read_num_le _ _ 2 flags) by auto. cbn [bind].
  rewrite (read_num_le _ _ 1 type) by auto. cbn [bind].
  apply holds_slice_eq in Hb. rewrite repeat_length in Hb. rewrite Hb. reflexivity.
Qed.

(* ------------------------------------------------------------------ *)
(** ** Data link of the data group *)

Lemma Forall3_blocks : forall gs xss is f, Forall3 (grp_reads f) gs xss is ->
  Forall2 (good f) (concat (map di_blocks is)) (concat xss).
Proof.
  intros gs xss is f H. induction H as [|[[b d] ks] xs i gs xss is R _ IH]; [constructor|].
  cbn [map concat]. destruct R as (_ & _ & _ & _ & _ & G). apply Forall2_app; auto.
Qed.

Lemma read_blocks_hl : forall k f l b l', pos64 l = true -> N.to_nat l = b_pos b ->
  read_type f (b_pos b) = [72; 76] -> read_hl f (b_pos b) = Ok l' ->
  read_blocks (S k) f l = read_blocks k f l'.
Proof.
  intros k f l b l' P E T R. cbn [read_blocks]. rewrite P, E, T, R. reflexivity.
Qed.

Lemma dl_at_type : forall f b d ks hi, dl_at f b d ks hi -> read_type f (b_pos b) = [68; 76].
Proof.
  intros f b d ks hi (ps & P & T & N & E & H & B). apply holds_app in H as [H _]. rewrite T in H.
  assert (T2 : two_ok 68 76) by (repeat split; discriminate). apply (read_type_at _ _ _ _ _ _ T2 H).
Qed.

Lemma read_blocks_chain : forall gs xss f lo l hi fuel, chain f lo l gs hi 0 -> (hi <= length f)%nat ->
  N.of_nat (length f) < 2 ^ 63 -> Forall2 grp_made gs xss -> (length gs + 1 < fuel)%nat ->
  exists is, read_dls fuel f l = Some (Ok is) /\ Forall3 (grp_reads f) gs xss is /\
    read_blocks fuel f l = Some (Ok (concat (map di_blocks is))).
Proof.
  intros gs xss f lo l hi fuel C HI L M F.
  destruct fuel as [|fuel]; [lia|].
  destruct (read_dls_at gs xss f lo l hi (S fuel) C HI L M ltac:(lia)) as (is & R & G).
  exists is. split; [auto|]. split; [auto|].
  destruct gs as [|[[b d] ks] gs].
  - inversion G; subst. cbn [chain] in C. destruct C as [_ ->]. reflexivity.
  - destruct (read_dls_at _ xss f lo l hi fuel C HI L M ltac:(lia)) as (is' & R' & G').
    cbn [chain] in C. destruct C as (mid & A & -> & D & C).
    pose proof (dl_at_type _ _ _ _ _ D) as T. pose proof D as (ps & P & _).
    pose proof (dl_at_range _ _ _ _ _ D) as RD. pose proof (chain_range _ _ _ _ _ _ C) as RC.
    assert (P64 : pos64 (N.of_nat (b_pos b)) = true)
      by (unfold pos64; apply andb_true_iff; split; apply N.ltb_lt; lia).
    cbn [read_blocks]. rewrite P64, Nat2N.id, T. cbn [eqb_type raw_type orb andb].
    change (68 =? 68) with true. change (76 =? 90) with false. change (76 =? 84) with false.
    change (76 =? 86) with false. change (76 =? 73) with false. change (68 =? 82) with false.
    change (68 =? 83) with false. change (76 =? 76) with true. cbn [orb andb].
    rewrite R'. cbn [bind].
    assert (EQ : forall a b l, read_dls a f l = Some (Ok is) -> read_dls b f l = Some (Ok is') -> is = is').
    { clear. intros a. revert is is'. induction a as [|a IH]; intros is is' [|b] l H1 H2; try discriminate.
      rewrite read_dls_S in H1, H2. destruct (pos64 l); [|congruence].
      destruct (read_dl f (N.to_nat l)) as [d| |]; try discriminate.
      destruct (read_dls a f (di_next d)) as [[ds| |]|] eqn:E1; try discriminate.
      destruct (read_dls b f (di_next d)) as [[ds'| |]|] eqn:E2; try discriminate.
      injection H1 as <-. injection H2 as <-. f_equal. eapply IH; eauto. }
    rewrite (EQ _ _ _ R R'). reflexivity.
Qed.

Lemma good_all_bytes : forall ds xs f, Forall2 (good f) ds xs -> all_bytes inflate f ds = Ok xs.
Proof.
  intros ds xs f H. induction H as [|d x ds xs (_ & B & _) _ IH]; [reflexivity|].
  cbn [all_bytes]. rewrite B. cbn [bind]. rewrite IH. reflexivity.
Qed.

Lemma put_after : forall (a b c : list N), length c = length b -> put (a ++ c) (length a) b = a ++ b.
Proof.
  intros a b c L. rewrite put_in by (rewrite app_length; lia).
  rewrite firstn_app, Nat.sub_diag, firstn_all. cbn [firstn]. rewrite app_nil_r.
  rewrite skipn_all2 by (rewrite app_length; lia). rewrite app_nil_r. reflexivity.
Qed.

Lemma good_copy : forall ds xs f pre, Forall2 (good f) ds xs ->
  N.of_nat (length pre + length (concat xs)) < 2 ^ 64 ->
  copy_blocks inflate f ds (pre ++ repeat 0 (length (concat xs)), N.of_nat (length pre))
  = Ok (pre ++ concat xs, N.of_nat (length (pre ++ concat xs))).
Proof.
  intros ds xs f pre H. revert pre. induction H as [|d x ds xs (_ & _ & C) _ IH]; intros pre L.
  - cbn [concat length copy_blocks repeat]. rewrite app_nil_r. reflexivity.
  - cbn [copy_blocks concat] in *. rewrite !app_length in *. rewrite repeat_app.
    rewrite C by (rewrite !app_length, !repeat_length; lia). cbn [bind].
    rewrite Nat2N.id.
    replace (put (pre ++ repeat 0 (length x) ++ repeat 0 (length (concat xs))) (length pre) x)
      with ((pre ++ x) ++ repeat 0 (length (concat xs))).
    + replace (N.of_nat (length pre) + N.of_nat (length x)) with (N.of_nat (length (pre ++ x)))
        by (rewrite app_length; lia).
      rewrite IH by (rewrite app_length; lia). rewrite <- app_assoc. f_equal. f_equal.
      rewrite !app_length. lia.
    + rewrite put_in by (rewrite !app_length, !repeat_length; lia).
      rewrite firstn_app, Nat.sub_diag, firstn_all. cbn [firstn]. rewrite app_nil_r, <- app_assoc.
      f_equal. f_equal. rewrite <- skipn_plus. rewrite skipn_app, skipn_all, Nat.sub_diag. cbn [skipn app].
      rewrite skipn_app, repeat_length, Nat.sub_diag. rewrite skipn_all2 by (rewrite repeat_length; lia). reflexivity.
Qed.

Lemma good_sizes : forall ds xs f, Forall2 (good f) ds xs -> N.of_nat (length (concat xs)) < 2 ^ 64 ->
  fold_right (fun d a => w64 (data_size d + a)) 0 ds = N.of_nat (length (concat xs)).
Proof.
  intros ds xs f H. induction H as [|d x ds xs (S & _ & _) _ IH]; intros L; [reflexivity|].
  cbn [fold_right concat] in *. rewrite app_length in *. rewrite IH by lia. rewrite S.
  unfold w64. rewrite N.mod_small by lia. lia.
Qed.

End Store.
Arguments Forall3 {A B C} R _ _ _.
