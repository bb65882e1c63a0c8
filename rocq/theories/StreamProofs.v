(** Proofs about the block cursor and the record reader. *)
From Verif Require Import Base StreamModel StreamSpec.
Local Open Scope N_scope.

(** The cursor stands before the bytes [rem]. *)
Definition good (s : rc) (rem : list N) : Prop :=
  stale s = false /\ (fi s <= length (cur s))%nat /\ Forall (fun b => b <> []) (todo s) /\
  skipn (fi s) (cur s) ++ concat (todo s) = rem.

Lemma good_init : forall blocks, Forall (fun b => b <> []) blocks ->
  good (rc_init blocks) (concat blocks).
Proof. intros. unfold good, rc_init; cbn. repeat split; auto. Qed.

Lemma nth_skipn_hd : forall (l : list N) i, (i < length l)%nat ->
  skipn i l = nth i l 0 :: skipn (S i) l.
Proof.
  induction l; intros i H; [cbn in H; lia|].
  destruct i; [reflexivity|]. cbn [length] in H. cbn [skipn nth].
  rewrite (IHl i) by lia. reflexivity.
Qed.

Lemma get_byte_good : forall s x rem, good s (x :: rem) ->
  exists s', get_byte s = Ok (x, s') /\ good s' rem /\ dc s' = dc s + 1.
Proof.
  intros s x rem (Hs & Hf & Hn & Hr). unfold get_byte.
  destruct (Nat.ltb_spec (fi s) (length (cur s))).
  - rewrite Hs. rewrite nth_skipn_hd in Hr by auto. cbn [app] in Hr. injection Hr as Hx Hr.
    eexists. split; [rewrite Hx; reflexivity|]. split; [|reflexivity].
    unfold good; cbn. repeat split; auto.
  - rewrite skipn_all2 in Hr by lia. cbn [app] in Hr.
    destruct (todo s) as [|b r]; [discriminate|].
    inversion Hn; subst. destruct b as [|y b]; [congruence|].
    cbn [concat app] in Hr. injection Hr as Hx Hr. subst y.
    eexists. split; [reflexivity|]. split; [|reflexivity].
    unfold good; cbn. repeat split; auto. lia.
Qed.

Lemma get_byte_end : forall s, good s [] -> get_byte s = Fail.
Proof.
  intros s (Hs & Hf & Hn & Hr). unfold get_byte.
  apply app_eq_nil in Hr as [H1 H2].
  destruct (Nat.ltb_spec (fi s) (length (cur s))).
  - rewrite nth_skipn_hd in H1 by auto. discriminate.
  - destruct (todo s) as [|b r]; auto. inversion Hn; subst.
    destruct b; [congruence|discriminate].
Qed.

Lemma get_loop_good : forall n s rem, good s rem -> (n <= length rem)%nat ->
  exists s', get_loop n s = Ok (firstn n rem, s') /\ good s' (skipn n rem)
             /\ dc s' = dc s + N.of_nat n.
Proof.
  induction n; intros s rem G H.
  - exists s. cbn [get_loop firstn skipn]. repeat split; try apply G. lia.
  - destruct rem as [|x rem]; [cbn in H; lia|]. cbn [length] in H.
    destruct (get_byte_good _ _ _ G) as (s1 & E1 & G1 & D1).
    destruct (IHn s1 rem G1) as (s2 & E2 & G2 & D2); [lia|].
    exists s2. cbn [get_loop]. rewrite E1. cbn [bind fst snd]. rewrite E2. cbn [bind fst snd firstn skipn].
    repeat split; try apply G2. lia.
Qed.

Lemma get_loop_short : forall n s rem, good s rem -> (length rem < n)%nat -> get_loop n s = Fail.
Proof.
  induction n; intros s rem G H; [lia|].
  cbn [get_loop]. destruct rem as [|x rem].
  - rewrite (get_byte_end _ G). reflexivity.
  - destruct (get_byte_good _ _ _ G) as (s1 & E1 & G1 & D1).
    rewrite E1. cbn [bind fst snd]. cbn [length] in H. rewrite (IHn s1 rem G1) by lia. reflexivity.
Qed.

Lemma get_good : forall n s rem, good s rem -> (n <= length rem)%nat ->
  exists s', get_array n s = Ok (firstn n rem, s') /\ good s' (skipn n rem)
             /\ dc s' = dc s + N.of_nat n.
Proof.
  intros n s rem G H. unfold get_array.
  destruct (Nat.leb_spec (fi s + n) (length (cur s))) as [L|L].
  - destruct G as (Hs & Hf & Hn & Hr). rewrite Hs. cbn [andb].
    eexists. split; [|split].
    + f_equal. f_equal. unfold slice. rewrite <- Hr.
      rewrite firstn_app, skipn_length.
      replace (n - (length (cur s) - fi s))%nat with 0%nat by lia.
      rewrite firstn_O, app_nil_r. reflexivity.
    + unfold good; cbn. repeat split; auto.
      rewrite <- Hr, skipn_app, skipn_length, skipn_plus.
      replace (n - (length (cur s) - fi s))%nat with 0%nat by lia. reflexivity.
    + reflexivity.
  - apply get_loop_good; auto.
Qed.

Lemma get_short : forall n s rem, good s rem -> (length rem < n)%nat -> get_array n s = Fail.
Proof.
  intros n s rem G H. unfold get_array.
  destruct (Nat.leb_spec (fi s + n) (length (cur s))) as [L|L].
  - exfalso. destruct G as (Hs & Hf & Hn & Hr). rewrite <- Hr, app_length, skipn_length in H. lia.
  - eapply get_loop_short; eauto.
Qed.

Lemma skip_blocks_good : forall blocks n s, (0 < n)%nat ->
  Forall (fun b => b <> []) blocks -> (n <= length (concat blocks))%nat ->
  exists m t, skip_blocks n blocks s = (m, t) /\ (0 < m <= n)%nat /\
    stale t = false /\ fi t = 0%nat /\ (m <= length (cur t))%nat /\ dc t = dc s /\
    Forall (fun b => b <> []) (todo t) /\
    skipn m (cur t) ++ concat (todo t) = skipn n (concat blocks).
Proof.
  induction blocks as [|b r IH]; intros n s Hn HF HL.
  - cbn in HL. lia.
  - inversion HF; subst. cbn [skip_blocks concat] in *. rewrite app_length in HL.
    destruct (Nat.ltb_spec (length b) n) as [L|L].
    + destruct (IH (n - length b)%nat (mkRc b 0 true r (dc s))) as (m & t & E & Hm & A1 & A2 & A3 & A4 & A5 & A6);
        [lia|auto|lia|].
      exists m, t. rewrite E. repeat split; auto; try lia.
      rewrite A6, skipn_app, (skipn_all2 b) by lia. reflexivity.
    + exists n, (mkRc b 0 false r (dc s)). cbn. repeat split; auto; try lia.
      rewrite skipn_app. replace (n - length b)%nat with 0%nat by lia. reflexivity.
Qed.

Lemma skip_good : forall n s rem, good s rem -> (n <= length rem)%nat ->
  good (skip_bytes n s) (skipn n rem) /\ dc (skip_bytes n s) <= dc s + N.of_nat n /\
  ((0 < n)%nat -> dc s < dc (skip_bytes n s)).
Proof.
  intros n s rem (Hs & Hf & Hn & Hr) H. unfold skip_bytes.
  destruct (Nat.leb_spec (fi s + n) (length (cur s))) as [L|L].
  - cbn [cur fi stale todo dc]. split; [|split; lia].
    unfold good; cbn. repeat split; auto.
    rewrite <- Hr, skipn_app, skipn_length, skipn_plus.
    replace (n - (length (cur s) - fi s))%nat with 0%nat by lia. reflexivity.
  - assert (Hlen : length rem = (length (cur s) - fi s + length (concat (todo s)))%nat).
    { rewrite <- Hr, app_length, skipn_length. reflexivity. }
    destruct (skip_blocks_good (todo s) (n + fi s - length (cur s)) s)
      as (m & t & E & Hm & A1 & A2 & A3 & A4 & A5 & A6); [lia|auto|lia|].
    rewrite E. destruct (Nat.ltb_spec 0 m); [|lia].
    cbn [cur fi stale todo dc]. split; [|split; lia].
    unfold good; cbn [cur fi stale todo dc]. rewrite A2. cbn [Nat.add].
    repeat split; auto. rewrite A6.
    rewrite <- Hr, skipn_app, skipn_length.
    rewrite (skipn_all2 (skipn (fi s) (cur s))) by (rewrite skipn_length; lia). cbn [app].
    f_equal. lia.
Qed.

(* ------------------------------------------------------------------ *)
(** ** Groups *)

Lemma cg_map_nodup : forall l, NoDup (map g_id l) -> cg_map l = l.
Proof.
  induction l as [|g r IH]; intros H; [reflexivity|].
  cbn [cg_map]. cbn [map] in H. inversion H as [|? ? Hni Hnd]; subst. rewrite IH by auto.
  f_equal.
  assert (K : forall h, In h r -> negb (g_id h =? g_id g) = true).
  { intros h Hh. destruct (N.eqb_spec (g_id h) (g_id g)); auto. exfalso. apply Hni.
    rewrite <- e. apply in_map; auto. }
  clear - K. induction r; [reflexivity|]. cbn [filter].
  rewrite K by (left; auto). f_equal. apply IHr. intros; apply K; right; auto.
Qed.

Lemma find_in_nodup : forall l g, NoDup (map g_id l) -> In g l ->
  find (fun h => g_id h =? g_id g) l = Some g.
Proof.
  induction l as [|h r IH]; intros g H Hin; [destruct Hin|].
  cbn [map] in H. inversion H as [|? ? Hni Hnd]; subst. cbn [find].
  destruct Hin as [->|Hin]; [rewrite N.eqb_refl; reflexivity|].
  destruct (N.eqb_spec (g_id h) (g_id g)).
  - exfalso. apply Hni. rewrite e. apply in_map; auto.
  - apply IH; auto.
Qed.

Lemma find_group_in : forall d g, dg_ok d -> In g (d_groups d) ->
  find_group d (g_id g) = Some g.
Proof.
  intros d g H Hin. unfold find_group. rewrite cg_map_nodup by apply H.
  pose proof (find_in_nodup _ _ (dg_ids _ H) Hin) as F.
  destruct (d_groups d) as [|a [|b r]] eqn:E; auto.
  destruct Hin as [->|[]]. reflexivity.
Qed.

Lemma find_cg_in : forall d g, dg_ok d -> In g (d_groups d) ->
  find_cg_record_id d (g_id g) = Some g.
Proof.
  intros d g H Hin. unfold find_cg_record_id.
  pose proof (find_in_nodup _ _ (dg_ids _ H) Hin) as F.
  destruct (d_groups d) as [|a [|b r]] eqn:E; auto.
  destruct Hin as [->|[]]. reflexivity.
Qed.

Lemma existsb_id : forall (P : group -> bool) l g, NoDup (map g_id l) -> In g l ->
  existsb (fun h => (g_id h =? g_id g) && P h) l = P g.
Proof.
  induction l as [|h r IH]; intros g H Hin; [destruct Hin|].
  cbn [map] in H. inversion H as [|? ? Hni Hnd]; subst. cbn [existsb].
  destruct Hin as [->|Hin].
  - rewrite N.eqb_refl. cbn [andb].
    replace (existsb (fun h => (g_id h =? g_id g) && P h) r) with false; [apply orb_false_r|].
    symmetry. apply not_true_is_false. intros C. apply existsb_exists in C as (x & Hx & Hc).
    apply andb_prop in Hc as [Hc _]. apply N.eqb_eq in Hc. apply Hni. rewrite <- Hc. apply in_map; auto.
  - destruct (N.eqb_spec (g_id h) (g_id g)).
    + exfalso. apply Hni. rewrite e. apply in_map; auto.
    + cbn [andb orb]. apply IH; auto.
Qed.

Lemma vlsd_id_in : forall d g, dg_ok d -> In g (d_groups d) -> vlsd_id d (g_id g) = g_vlsd g.
Proof. intros. unfold vlsd_id. apply (existsb_id g_vlsd); auto. apply H. Qed.

Lemma in_id_list_in : forall d sub g, dg_ok d -> In g (d_groups d) ->
  in_id_list d sub (g_id g) = sub (g_id g).
Proof. intros. unfold in_id_list. apply (existsb_id (fun h => sub (g_id h))); auto. apply H. Qed.

Lemma nof_of_in : forall d g, dg_ok d -> In g (d_groups d) -> nof_of d (g_id g) = g_nof g.
Proof. intros. unfold nof_of. rewrite find_in_nodup; auto. apply H. Qed.

Lemma in_range_map_in : forall d g, In g (d_groups d) -> in_range_map d (g_id g) = true.
Proof.
  intros. unfold in_range_map. apply existsb_exists. exists g. split; auto. apply N.eqb_refl.
Qed.

(** Decoding the id field. *)
Lemma parse_id_good : forall d g s rem, dg_ok d -> In g (d_groups d) ->
  good s (le_bytes (N.to_nat (d_idsize d)) (g_id g) ++ rem) ->
  exists s', parse_id d s = Ok (g_id g, s') /\ good s' rem /\ dc s' = dc s + d_idsize d.
Proof.
  intros d g s rem H Hin G. unfold parse_id.
  destruct (N.eqb_spec (d_idsize d) 0) as [Z|Z].
  - exists s. rewrite Z in G. cbn [N.to_nat le_bytes app] in G.
    pose proof (dg_single _ H Z) as L. destruct (d_groups d) as [|a [|b r]]; try discriminate.
    destruct Hin as [->|[]]. rewrite Z. repeat split; try apply G. lia.
  - assert (K : ((d_idsize d =? 1) || (d_idsize d =? 2) || (d_idsize d =? 4) || (d_idsize d =? 8)) = true).
    { pose proof (dg_size _ H) as I. cbn [In] in I. lia. }
    rewrite K.
    destruct (get_good (N.to_nat (d_idsize d)) s _ G) as (s' & E & G' & D).
    { rewrite app_length, le_bytes_length. lia. }
    rewrite E. cbn [bind fst snd]. exists s'.
    rewrite firstn_app, le_bytes_length, Nat.sub_diag, firstn_O, app_nil_r.
    rewrite firstn_all2 by (rewrite le_bytes_length; lia).
    rewrite skipn_app, le_bytes_length, Nat.sub_diag in G'.
    rewrite skipn_all2 in G' by (rewrite le_bytes_length; lia). cbn [app skipn] in G'.
    rewrite le_num_bytes, N2Nat.id, N.mod_small by (apply (dg_fit _ H); auto).
    repeat split; try apply G'. lia.
Qed.

Lemma get_len4 : forall n s rem, n < 2 ^ 32 -> good s (le_bytes 4 n ++ rem) ->
  exists s', get_array 4 s = Ok (le_bytes 4 n, s') /\ le_num (le_bytes 4 n) = n /\ good s' rem /\
             dc s' = dc s + 4.
Proof.
  intros n s rem Hn G.
  destruct (get_good 4 s _ G) as (s' & E & G' & D).
  { rewrite app_length, le_bytes_length. lia. }
  exists s'. rewrite E.
  change (firstn 4 (le_bytes 4 n ++ rem)) with (le_bytes 4 n).
  change (skipn 4 (le_bytes 4 n ++ rem)) with rem in G'.
  repeat split; try apply G'; auto.
  rewrite le_num_bytes. apply N.mod_small. exact Hn.
Qed.

Lemma payload_size_good : forall g s (data rem : list N),
  (if g_vlsd g then N.of_nat (length data) < 2 ^ 32 else length data = rec_size g) ->
  good s ((if g_vlsd g then le_bytes 4 (N.of_nat (length data)) else []) ++ data ++ rem) ->
  exists s', payload_size g s = Ok (length data, s') /\ good s' (data ++ rem) /\
    dc s' = dc s + (if g_vlsd g then 4 else 0).
Proof.
  intros g s data rem H G. unfold payload_size. destruct (g_vlsd g).
  - destruct (get_len4 _ _ _ H G) as (s' & E & L & G' & D).
    rewrite E. cbn [bind fst snd]. rewrite L, Nat2N.id. exists s'. auto.
  - exists s. rewrite H. repeat split; try apply G. lia.
Qed.

Lemma good_length : forall s rem, good s rem ->
  length rem = (length (cur s) - fi s + length (concat (todo s)))%nat.
Proof. intros s rem (A & B & C & D). rewrite <- D, app_length, skipn_length. reflexivity. Qed.

(* ------------------------------------------------------------------ *)
(** ** One record *)

(** The counters are those of the records [prev] already seen. *)
Definition cnt_ok (d : dgroup) (cnt : N -> N) (prev : list srec) : Prop :=
  forall g, In g (d_groups d) -> cnt (g_id g) = N.min (occ (g_id g) prev) (g_nof g).

Lemma occ_snoc : forall id prev r,
  occ id (prev ++ [r]) = occ id prev + (if r_id r =? id then 1 else 0).
Proof.
  intros. unfold occ. rewrite filter_app, app_length. cbn [filter].
  destruct (r_id r =? id); cbn [length]; lia.
Qed.

Lemma cnt_ok_same : forall d cnt prev r g, dg_ok d -> In g (d_groups d) -> g_id g = r_id r ->
  cnt_ok d cnt prev -> (cnt (g_id g) <? g_nof g) = false -> cnt_ok d cnt (prev ++ [r]).
Proof.
  intros d cnt prev r g H Hin E C L h Hh. rewrite (C h Hh), occ_snoc.
  destruct (N.eqb_spec (r_id r) (g_id h)) as [Q|Q]; [|f_equal; lia].
  pose proof (C g Hin) as K. rewrite E, Q in K, L. rewrite K in L. 
  assert (h = g).
  { pose proof (find_in_nodup _ _ (dg_ids _ H) Hin) as F1.
    pose proof (find_in_nodup _ _ (dg_ids _ H) Hh) as F2. rewrite <- Q, <- E in F2. congruence. }
  subst h. lia.
Qed.

Lemma cnt_ok_upd : forall d cnt prev r g, dg_ok d -> In g (d_groups d) -> g_id g = r_id r ->
  cnt_ok d cnt prev -> (cnt (g_id g) <? g_nof g) = true ->
  cnt_ok d (upd cnt (g_id g) (cnt (g_id g) + 1)) (prev ++ [r]).
Proof.
  intros d cnt prev r g H Hin E C L h Hh. unfold upd. rewrite occ_snoc, <- E.
  rewrite (N.eqb_sym (g_id g)).
  destruct (N.eqb_spec (g_id h) (g_id g)) as [Q|Q].
  - assert (h = g).
    { pose proof (find_in_nodup _ _ (dg_ids _ H) Hin) as F1.
      pose proof (find_in_nodup _ _ (dg_ids _ H) Hh) as F2. rewrite Q in F2. congruence. }
    subst h. pose proof (C g Hin) as K. lia.
  - rewrite (C h Hh). f_equal. lia.
Qed.

Lemma cnt_lt : forall d cnt prev g, dg_ok d -> In g (d_groups d) -> cnt_ok d cnt prev ->
  (cnt (g_id g) <? g_nof g) = (occ (g_id g) prev <? g_nof g).
Proof.
  intros d cnt prev g H Hin C. rewrite (C g Hin).
  destruct (N.ltb_spec (occ (g_id g) prev) (g_nof g));
    destruct (N.ltb_spec (N.min (occ (g_id g) prev) (g_nof g)) (g_nof g)); auto; lia.
Qed.

(** The events a single record causes. *)
Definition ev_of (d : dgroup) (sub : N -> bool) (prev : list srec) (r : srec) : list event :=
  if sub (r_id r) && (occ (r_id r) prev <? nof_of d (r_id r))
  then [Ev (occ (r_id r) prev) (r_id r) (r_data r)] else [].

Lemma enc_rec_pos : forall d r, dg_ok d -> rec_ok d r -> (0 < length (enc_rec d r))%nat.
Proof.
  intros d r H (g & Hin & E & R). unfold enc_rec. rewrite <- E, (vlsd_id_in _ _ H Hin), !app_length, le_bytes_length.
  destruct (N.eq_dec (d_idsize d) 0) as [Z|Z]; [|lia].
  destruct (g_vlsd g) eqn:V.
  - rewrite le_bytes_length. lia.
  - pose proof (dg_bytes _ H g Hin Z V). lia.
Qed.

Lemma parse_record_one : forall d sub verdict mx st prev r rest,
  dg_ok d -> rec_ok d r ->
  good (p_rc st) (enc_rec d r ++ rest) -> cnt_ok d (p_cnt st) prev ->
  dc (p_rc st) + N.of_nat (length (enc_rec d r ++ rest)) <= mx ->
  exists st',
    parse_record d sub verdict mx st = Ok (forallb verdict (ev_of d sub prev r), st') /\
    good (p_rc st') rest /\ cnt_ok d (p_cnt st') (prev ++ [r]) /\
    p_log st' = p_log st ++ ev_of d sub prev r /\
    dc (p_rc st') + N.of_nat (length rest) <= mx /\ dc (p_rc st) < dc (p_rc st').
Proof.
  intros d sub verdict mx st prev r rest H R G C M.
  pose proof (enc_rec_pos d r H R) as Hpos. rewrite app_length in M.
  destruct R as (g & Hin & E & R).
  assert (GG := G). unfold enc_rec in GG. rewrite <- E, (vlsd_id_in _ _ H Hin) in GG.
  rewrite <- !app_assoc in GG.
  destruct (parse_id_good d g _ _ H Hin GG) as (s1 & E1 & G1 & D1).
  destruct (payload_size_good g s1 (r_data r) rest R G1) as (s2 & E2 & G2 & D2).
  unfold parse_record.
  destruct (d_groups d) as [|g0 gs] eqn:EG; [destruct Hin|]. rewrite <- EG in *.
  replace (mx <=? dc (p_rc st)) with false by lia.
  rewrite E1. cbn [bind fst snd]. rewrite (find_group_in _ _ H Hin). rewrite E2. cbn [bind fst snd].
  rewrite (in_id_list_in _ sub _ H Hin).
  assert (HL : length (enc_rec d r) = (N.to_nat (d_idsize d) + ((if g_vlsd g then 4 else 0) + length (r_data r)))%nat).
  { unfold enc_rec. rewrite <- E, (vlsd_id_in _ _ H Hin), !app_length, le_bytes_length.
    destruct (g_vlsd g); [rewrite le_bytes_length|]; reflexivity. }
  unfold ev_of. rewrite <- E, (nof_of_in _ _ H Hin).
  destruct (sub (g_id g)) eqn:ES.
  - destruct (get_good (length (r_data r)) s2 _ G2) as (s3 & E3 & G3 & D3).
    { rewrite app_length. lia. }
    rewrite E3. cbn [bind fst snd andb]. 
    rewrite firstn_app, Nat.sub_diag, firstn_O, app_nil_r, firstn_all.
    rewrite skipn_app, Nat.sub_diag, skipn_all in G3. cbn [app skipn] in G3.
    unfold notify. rewrite (cnt_lt d _ prev g H Hin C).
    destruct (N.ltb_spec (occ (g_id g) prev) (g_nof g)) as [L|L].
    + pose proof (C g Hin) as K. rewrite N.min_l in K by lia.
      rewrite K. eexists. split; [cbn [forallb]; rewrite andb_true_r; reflexivity|].
      cbn [p_rc p_cnt p_log]. repeat split; try apply G3.
      * rewrite <- K. apply cnt_ok_upd with (r := r); auto. rewrite K. lia.
      * destruct (g_vlsd g); lia.
      * destruct (g_vlsd g); lia.
    + eexists. split; [reflexivity|]. cbn [p_rc p_cnt p_log]. repeat split; try apply G3.
      * eapply cnt_ok_same; eauto. rewrite (cnt_lt d _ prev g H Hin C). lia.
      * rewrite app_nil_r; reflexivity.
      * destruct (g_vlsd g); lia.
      * destruct (g_vlsd g); lia.
  - cbn [andb forallb].
    destruct (skip_good (length (r_data r)) s2 _ G2) as (G3 & D3 & D4).
    { rewrite app_length. lia. }
    rewrite skipn_app, Nat.sub_diag, skipn_all in G3. cbn [app skipn] in G3.
    assert (D5 : dc (p_rc st) < dc (skip_bytes (length (r_data r)) s2)).
    { destruct (Nat.eq_dec (length (r_data r)) 0) as [Z|Z].
      - assert (dc s2 <= dc (skip_bytes (length (r_data r)) s2)).
        { rewrite Z. unfold skip_bytes. destruct G2 as (_ & F & _).
          replace (fi s2 + 0 <=? length (cur s2))%nat with true by lia. cbn [dc]. lia. }
        destruct (g_vlsd g); lia.
      - specialize (D4 ltac:(lia)). destruct (g_vlsd g); lia. }
    eexists. split; [reflexivity|]. unfold count_skip.
    destruct (p_cnt st (g_id g) <? g_nof g) eqn:L; cbn [p_rc p_cnt p_log]; rewrite app_nil_r.
    + repeat split; try apply G3; auto.
      * apply cnt_ok_upd with (r := r); auto.
      * destruct (g_vlsd g); lia.
    + repeat split; try apply G3; auto.
      * eapply cnt_ok_same; eauto.
      * destruct (g_vlsd g); lia.
Qed.

(* ------------------------------------------------------------------ *)
(** ** The whole stream *)

(** The end of the stream: nothing more is delivered. *)
Lemma skip_end : forall n s, (length (cur s) <= fi s)%nat -> todo s = [] -> (0 < n)%nat ->
  exists s', skip_bytes n s = s' /\ (length (cur s') <= fi s')%nat /\ todo s' = [] /\
    dc s < dc s'.
Proof.
  intros n s Hf Ht Hn. unfold skip_bytes.
  destruct (Nat.leb_spec (fi s + n) (length (cur s))); [lia|].
  rewrite Ht. cbn [skip_blocks]. destruct (Nat.ltb_spec 0 (n + fi s - length (cur s))); [|lia].
  eexists. split; [reflexivity|]. cbn. rewrite Ht. repeat split; lia.
Qed.

Lemma get_past_end : forall n s, (length (cur s) <= fi s)%nat -> todo s = [] -> (0 < n)%nat ->
  get_array n s = Fail.
Proof.
  intros n s Hf Ht Hn. unfold get_array.
  destruct (Nat.leb_spec (fi s + n) (length (cur s))); [lia|].
  destruct n; [lia|]. cbn [get_loop]. unfold get_byte.
  destruct (Nat.ltb_spec (fi s) (length (cur s))); [lia|]. rewrite Ht. reflexivity.
Qed.

Lemma read_loop_end : forall fuel d sub verdict mx st, dg_ok d ->
  (length (cur (p_rc st)) <= fi (p_rc st))%nat -> todo (p_rc st) = [] ->
  mx - dc (p_rc st) < N.of_nat fuel ->
  read_loop d sub verdict mx fuel st = Some (Ok (p_log st)).
Proof.
  induction fuel; intros d sub verdict mx st H Hf Ht HF; [lia|].
  cbn [read_loop]. unfold parse_record.
  destruct (d_groups d) as [|g0 gs] eqn:EG; [reflexivity|].
  destruct (N.leb_spec mx (dc (p_rc st))); [reflexivity|].
  unfold parse_id.
  destruct (N.eqb_spec (d_idsize d) 0) as [Z|Z].
  - cbn [bind fst snd].
    assert (Hin : In g0 (d_groups d)) by (rewrite EG; left; auto).
    assert (EM : match d_groups d with [] => 0 | g :: _ => g_id g end = g_id g0)
      by (rewrite EG; reflexivity).
    rewrite EM, (find_group_in _ _ H Hin).
    unfold payload_size. destruct (g_vlsd g0) eqn:V.
    + rewrite get_past_end by (auto; lia). reflexivity.
    + cbn [bind fst snd]. pose proof (dg_bytes _ H g0 Hin Z V) as P.
      destruct (in_id_list d sub (g_id g0)).
      * rewrite get_past_end by auto. reflexivity.
      * destruct (skip_end (rec_size g0) (p_rc st) Hf Ht P) as (s' & E & F1 & F2 & F3).
        rewrite E. unfold count_skip.
        destruct (p_cnt st (g_id g0) <? g_nof g0); rewrite IHfuel; cbn [p_rc p_log]; auto; lia.
  - destruct ((d_idsize d =? 1) || (d_idsize d =? 2) || (d_idsize d =? 4) || (d_idsize d =? 8)) eqn:K; [|reflexivity].
    rewrite get_past_end by (auto; lia). reflexivity.
Qed.

Lemma good_nil : forall s, good s [] -> (length (cur s) <= fi s)%nat /\ todo s = [].
Proof.
  intros s (A & B & C & D). apply app_eq_nil in D as [D1 D2]. split.
  - assert (length (skipn (fi s) (cur s)) = 0%nat) by (rewrite D1; reflexivity).
    rewrite skipn_length in H. lia.
  - destruct (todo s) as [|b r]; auto. inversion C; subst. destruct b; [congruence|discriminate].
Qed.

Lemma upto_app : forall v a b, upto v (a ++ b) =
  if forallb v a then a ++ upto v b else upto v a.
Proof.
  induction a; intros; cbn; auto. rewrite IHa. destruct (v a); cbn; auto.
  destruct (forallb v a0); auto.
Qed.

Lemma upto_ev_of : forall d sub v prev r, upto v (ev_of d sub prev r) = ev_of d sub prev r.
Proof. intros. unfold ev_of. destruct (_ && _); cbn; auto. destruct (v _); auto. Qed.

Lemma expected_cons : forall d sub prev r t,
  expected d sub prev (r :: t) = ev_of d sub prev r ++ expected d sub (prev ++ [r]) t.
Proof. reflexivity. Qed.

(** Reading a stream of complete records followed by anything: the reader gets to the end of the
    records with the expected notifications, or was stopped by an observer. *)
Lemma read_loop_records : forall recs d sub verdict mx st prev fuel rest,
  dg_ok d -> Forall (rec_ok d) recs ->
  good (p_rc st) (stream d recs ++ rest) -> cnt_ok d (p_cnt st) prev ->
  dc (p_rc st) + N.of_nat (length (stream d recs ++ rest)) <= mx ->
  mx - dc (p_rc st) < N.of_nat fuel ->
  if forallb verdict (expected d sub prev recs) then
    exists st' fuel', read_loop d sub verdict mx fuel st = read_loop d sub verdict mx fuel' st' /\
      good (p_rc st') rest /\ p_log st' = p_log st ++ expected d sub prev recs /\
      dc (p_rc st') + N.of_nat (length rest) <= mx /\
      mx - dc (p_rc st') < N.of_nat fuel' /\ cnt_ok d (p_cnt st') (prev ++ recs)
  else
    read_loop d sub verdict mx fuel st =
    Some (Ok (p_log st ++ upto verdict (expected d sub prev recs))).
Proof.
  induction recs as [|r t IH]; intros d sub verdict mx st prev fuel rest H F G C M L.
  - cbn [expected forallb]. exists st, fuel. cbn [stream map concat app] in *.
    rewrite !app_nil_r. auto 10.
  - inversion F; subst. rewrite expected_cons, forallb_app.
    change (stream d (r :: t)) with (enc_rec d r ++ stream d t) in *.
    rewrite <- app_assoc in *.
    destruct (parse_record_one d sub verdict mx st prev r (stream d t ++ rest))
      as (st1 & E1 & G1 & C1 & L1 & M1 & D1); auto.
    destruct fuel as [|fuel]; [lia|]. 
    assert (ES : read_loop d sub verdict mx (S fuel) st =
                 if forallb verdict (ev_of d sub prev r)
                 then read_loop d sub verdict mx fuel st1 else Some (Ok (p_log st1))).
    { cbn [read_loop]. rewrite E1. destruct (forallb verdict (ev_of d sub prev r)); reflexivity. }
    destruct (forallb verdict (ev_of d sub prev r)) eqn:EV; cbn [andb].
    + specialize (IH d sub verdict mx st1 (prev ++ [r]) fuel rest H H3 G1 C1 M1).
      specialize (IH ltac:(lia)). rewrite ES, L1 in *. rewrite upto_app, EV.
      replace (prev ++ r :: t) with ((prev ++ [r]) ++ t) by (rewrite <- app_assoc; reflexivity).
      rewrite !app_assoc. exact IH.
    + rewrite ES, L1. rewrite upto_app, EV. rewrite upto_ev_of. reflexivity.
Qed.

Lemma upto_all : forall v l, forallb v l = true -> upto v l = l.
Proof.
  induction l; cbn; auto. intros H. apply andb_prop in H as [-> H]. rewrite IHl; auto.
Qed.

Lemma cnt_ok_init : forall d, cnt_ok d (fun _ => 0) [].
Proof. intros d g H. cbn. symmetry. apply N.min_0_l. Qed.

Lemma read_complete : forall d sub verdict recs blocks fuel,
  dg_ok d -> Forall (rec_ok d) recs -> Forall (fun b => b <> []) blocks ->
  concat blocks = stream d recs -> (length (stream d recs) < fuel)%nat ->
  read_data d sub verdict fuel blocks = Some (Ok (upto verdict (expected d sub [] recs))).
Proof.
  intros d sub verdict recs blocks fuel H F HB E L. unfold read_data.
  destruct blocks as [|b0 bs] eqn:EB.
  - cbn in E. destruct recs as [|r t]; [reflexivity|]. exfalso.
    inversion F; subst. pose proof (enc_rec_pos d r H H2) as P.
    change (stream d (r :: t)) with (enc_rec d r ++ stream d t) in E.
    destruct (enc_rec d r); [cbn in P; lia|discriminate].
  - rewrite <- EB in *. clear EB.
    pose proof (read_loop_records recs d sub verdict (N.of_nat (length (concat blocks)))
      (mkP (rc_init blocks) (fun _ => 0) []) [] fuel [] H F) as K.
    cbn [p_rc p_cnt p_log rc_init dc] in K. rewrite app_nil_r in K.
    specialize (K ltac:(rewrite <- E; apply good_init; auto) (cnt_ok_init d)).
    rewrite E in *. specialize (K ltac:(lia) ltac:(lia)).
    destruct (forallb verdict (expected d sub [] recs)) eqn:EV.
    + destruct K as (st' & fuel' & E1 & G1 & L1 & M1 & F1 & C1). rewrite E1.
      destruct (good_nil _ G1) as [A1 A2].
      rewrite read_loop_end by auto. rewrite L1. cbn [app]. rewrite upto_all by auto. reflexivity.
    + exact K.
Qed.
