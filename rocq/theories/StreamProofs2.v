(** Truncated streams, split independence for arbitrary bytes, subscription, counting. *)
From Verif Require Import Base StreamModel StreamSpec StreamProofs.
Local Open Scope N_scope.

(** A cursor before a proper prefix of a subscribed record delivers nothing more. *)
Lemma parse_record_cut : forall d sub verdict mx st r tail rest,
  dg_ok d -> rec_ok d r -> sub (r_id r) = true ->
  enc_rec d r = tail ++ rest -> rest <> [] -> good (p_rc st) tail ->
  parse_record d sub verdict mx st = Ok (false, st).
Proof.
  intros d sub verdict mx st r tail rest H R S E Hr G.
  destruct R as (g & Hin & Eid & R). unfold parse_record.
  destruct (d_groups d) as [|g0 gs] eqn:EG; [reflexivity|].
  destruct (mx <=? dc (p_rc st)); [reflexivity|].
  assert (Hin' : In g (d_groups d)) by (rewrite EG; auto).
  unfold enc_rec in E. rewrite <- Eid, (vlsd_id_in _ _ H Hin') in E. rewrite <- Eid in S.
  set (idf := le_bytes (N.to_nat (d_idsize d)) (g_id g)) in *.
  assert (Lid : length idf = N.to_nat (d_idsize d)) by apply le_bytes_length.
  assert (Hrl : (0 < length rest)%nat) by (destruct rest; [congruence|cbn; lia]).
  destruct (Nat.lt_ge_cases (length tail) (length idf)) as [L|L].
  - unfold parse_id. destruct (N.eqb_spec (d_idsize d) 0) as [Z|Z]; [rewrite Lid, Z in L; cbn in L; lia|].
    destruct ((d_idsize d =? 1) || (d_idsize d =? 2) || (d_idsize d =? 4) || (d_idsize d =? 8)); [|reflexivity].
    rewrite (get_short _ _ _ G) by lia. reflexivity.
  - assert (T : tail = idf ++ skipn (length idf) tail).
    { rewrite <- (firstn_skipn (length idf) tail) at 1. f_equal.
      apply (f_equal (firstn (length idf))) in E.
      rewrite !firstn_app, Nat.sub_diag, firstn_O, app_nil_r, firstn_all in E.
      replace (length idf - length tail)%nat with 0%nat in E by lia.
      rewrite firstn_O, app_nil_r in E. auto. }
    set (t1 := skipn (length idf) tail) in *. rewrite T in E, G. rewrite <- app_assoc in E.
    apply app_inv_head in E.
    destruct (parse_id_good d g _ _ H Hin' G) as (s1 & E1 & G1 & D1).
    rewrite E1. cbn [bind fst snd]. rewrite (find_group_in _ _ H Hin').
    rewrite (in_id_list_in _ sub _ H Hin'), S.
    unfold payload_size. destruct (g_vlsd g) eqn:V.
    + destruct (Nat.lt_ge_cases (length t1) 4) as [L4|L4].
      * rewrite (get_short _ _ _ G1) by lia. reflexivity.
      * assert (T2 : t1 = le_bytes 4 (N.of_nat (length (r_data r))) ++ skipn 4 t1).
        { rewrite <- (firstn_skipn 4 t1) at 1. f_equal.
          apply (f_equal (firstn 4)) in E.
          change (firstn 4 (le_bytes 4 (N.of_nat (length (r_data r))) ++ r_data r))
            with (le_bytes 4 (N.of_nat (length (r_data r)))) in E.
          rewrite firstn_app in E. replace (4 - length t1)%nat with 0%nat in E by lia.
          rewrite firstn_O, app_nil_r in E. auto. }
        set (t2 := skipn 4 t1) in *. rewrite T2 in E, G1. rewrite <- app_assoc in E.
        apply app_inv_head in E.
        destruct (get_len4 _ _ _ R G1) as (s2 & E2 & LN & G2 & D2).
        rewrite E2. cbn [bind fst snd]. rewrite LN, Nat2N.id.
        rewrite (get_short _ _ _ G2). reflexivity.
        rewrite E, app_length. lia.
    + cbn [bind fst snd]. rewrite (get_short _ _ _ G1); [reflexivity|].
      rewrite <- R. cbn [app] in E. rewrite E, app_length. lia.
Qed.

Lemma read_truncated : forall d sub verdict recs r tail rest blocks fuel,
  dg_ok d -> Forall (rec_ok d) recs -> rec_ok d r -> sub (r_id r) = true ->
  enc_rec d r = tail ++ rest -> rest <> [] ->
  Forall (fun b => b <> []) blocks -> concat blocks = stream d recs ++ tail ->
  (length (stream d recs ++ tail) < fuel)%nat ->
  read_data d sub verdict fuel blocks = Some (Ok (upto verdict (expected d sub [] recs))).
Proof.
  intros d sub verdict recs r tail rest blocks fuel H F R S ER HR HB E L.
  unfold read_data. destruct blocks as [|b0 bs] eqn:EB.
  - cbn in E. destruct recs as [|r1 t]; [reflexivity|]. exfalso.
    inversion F; subst. pose proof (enc_rec_pos d r1 H H2) as P.
    change (stream d (r1 :: t)) with (enc_rec d r1 ++ stream d t) in E.
    destruct (enc_rec d r1); [cbn in P; lia|discriminate].
  - rewrite <- EB in *. clear EB.
    pose proof (read_loop_records recs d sub verdict (N.of_nat (length (concat blocks)))
      (mkP (rc_init blocks) (fun _ => 0) []) [] fuel tail H F) as K.
    cbn [p_rc p_cnt p_log rc_init dc] in K.
    specialize (K ltac:(rewrite <- E; apply good_init; auto) (cnt_ok_init d)).
    rewrite E in *. specialize (K ltac:(lia) ltac:(lia)).
    destruct (forallb verdict (expected d sub [] recs)) eqn:EV.
    + destruct K as (st' & fuel' & E1 & G1 & L1 & M1 & F1 & C1). rewrite E1.
      destruct fuel' as [|fuel']; [lia|]. cbn [read_loop].
      rewrite (parse_record_cut d sub verdict _ st' r tail rest H R S ER HR G1).
      rewrite L1. cbn [app]. rewrite upto_all by auto. reflexivity.
    + exact K.
Qed.

(* ------------------------------------------------------------------ *)
(** ** Arbitrary bytes *)

(** Two cursors before the same bytes. *)
Definition same (s1 s2 : rc) : Prop :=
  exists rem, good s1 rem /\ good s2 rem /\ dc s1 = dc s2.

Definition same_out {A} (r1 r2 : res (A * rc)) : Prop :=
  match r1, r2 with
  | Ok (a, s1), Ok (b, s2) => a = b /\ same s1 s2
  | Fail, Fail => True
  | _, _ => False
  end.

Lemma same_get : forall n s1 s2, same s1 s2 -> same_out (get_array n s1) (get_array n s2).
Proof.
  intros n s1 s2 (rem & G1 & G2 & D).
  destruct (Nat.le_gt_cases n (length rem)) as [L|L].
  - destruct (get_good n _ _ G1 L) as (t1 & E1 & H1 & D1).
    destruct (get_good n _ _ G2 L) as (t2 & E2 & H2 & D2).
    rewrite E1, E2. cbn. split; auto. exists (skipn n rem). repeat split; try apply H1; try apply H2. lia.
  - rewrite (get_short _ _ _ G1 L), (get_short _ _ _ G2 L). exact I.
Qed.

Lemma same_id : forall d s1 s2, same s1 s2 -> same_out (parse_id d s1) (parse_id d s2).
Proof.
  intros d s1 s2 S. unfold parse_id.
  destruct (d_idsize d =? 0); [split; auto|].
  destruct (_ || _ || _ || _); [|exact I].
  pose proof (same_get (N.to_nat (d_idsize d)) _ _ S) as K.
  destruct (get_array (N.to_nat (d_idsize d)) s1) as [[a1 t1]| |];
    destruct (get_array (N.to_nat (d_idsize d)) s2) as [[a2 t2]| |]; cbn in *; try tauto.
  destruct K as [-> K]. auto.
Qed.

Lemma same_payload : forall g s1 s2, same s1 s2 -> same_out (payload_size g s1) (payload_size g s2).
Proof.
  intros g s1 s2 S. unfold payload_size. destruct (g_vlsd g); [|split; auto].
  pose proof (same_get 4 _ _ S) as K.
  destruct (get_array 4 s1) as [[a1 t1]| |];
    destruct (get_array 4 s2) as [[a2 t2]| |]; cbn in *; try tauto.
  destruct K as [-> K]. auto.
Qed.

(** Every record that can be attributed to a group is read, none is skipped. *)
Definition reads_all (d : dgroup) (sub : N -> bool) : Prop :=
  forall id g, (d_idsize d = 0 -> hd_error (map g_id (d_groups d)) = Some id) ->
    find_group d id = Some g -> in_id_list d sub id = true.

Lemma parse_id_zero : forall d s id s', d_groups d <> [] -> parse_id d s = Ok (id, s') ->
  d_idsize d = 0 -> hd_error (map g_id (d_groups d)) = Some id.
Proof.
  intros d s id s' H E Z. unfold parse_id in E. rewrite Z in E. cbn [N.eqb] in E.
  destruct (d_groups d) as [|g r]; [congruence|]. injection E as <- _. reflexivity.
Qed.

Lemma same_loop : forall d sub verdict mx fuel st1 st2, reads_all d sub ->
  same (p_rc st1) (p_rc st2) -> p_cnt st1 = p_cnt st2 -> p_log st1 = p_log st2 ->
  read_loop d sub verdict mx fuel st1 = read_loop d sub verdict mx fuel st2.
Proof.
  intros d sub verdict mx. induction fuel; intros st1 st2 RA S C L; [reflexivity|].
  cbn [read_loop]. unfold parse_record.
  destruct (d_groups d) as [|g0 gs] eqn:EG; [rewrite L; reflexivity|].
  assert (D : dc (p_rc st1) = dc (p_rc st2)) by (destruct S as (rem & _ & _ & D); auto).
  rewrite D. destruct (mx <=? dc (p_rc st2)); [rewrite L; reflexivity|].
  pose proof (same_id d _ _ S) as K.
  assert (NE : d_groups d <> []) by (rewrite EG; discriminate).
  pose proof (fun id s' => parse_id_zero d (p_rc st2) id s' NE) as PZ.
  destruct (parse_id d (p_rc st1)) as [[i1 t1]| |];
    destruct (parse_id d (p_rc st2)) as [[i2 t2]| |]; cbn in K; try tauto;
    cbn [bind fst snd]; [|rewrite L; reflexivity].
  destruct K as [-> K].
  destruct (find_group d i2) as [g|] eqn:FG; [|rewrite L; reflexivity].
  pose proof (same_payload g _ _ K) as K2.
  destruct (payload_size g t1) as [[n1 u1]| |];
    destruct (payload_size g t2) as [[n2 u2]| |]; cbn in K2; try tauto;
    cbn [bind fst snd]; [|rewrite L; reflexivity].
  destruct K2 as [-> K2]. rewrite (RA _ _ (PZ _ _ eq_refl) FG).
  pose proof (same_get n2 _ _ K2) as K3.
  destruct (get_array n2 u1) as [[a1 v1]| |];
    destruct (get_array n2 u2) as [[a2 v2]| |]; cbn in K3; try tauto;
    cbn [bind fst snd]; [|rewrite L; reflexivity].
  destruct K3 as [-> K3]. unfold notify. rewrite C, L.
  destruct (p_cnt st2 (g_id g) <? g_nof g).
  - destruct (verdict _); [apply IHfuel; auto|reflexivity].
  - apply IHfuel; auto.
Qed.

Lemma read_any_split : forall d sub verdict fuel b1 b2, reads_all d sub ->
  Forall (fun b => b <> []) b1 -> Forall (fun b => b <> []) b2 -> concat b1 = concat b2 ->
  read_data d sub verdict fuel b1 = read_data d sub verdict fuel b2.
Proof.
  intros d sub verdict fuel b1 b2 RA H1 H2 E. unfold read_data.
  assert (Z : forall b, Forall (fun x : list N => x <> []) b -> concat b = [] -> b = []).
  { intros b Hb Eb. destruct b as [|x b]; auto. inversion Hb; subst.
    destruct x; [congruence|discriminate]. }
  destruct b1 as [|x1 r1].
  - symmetry in E. rewrite (Z _ H2 E). reflexivity.
  - destruct b2 as [|x2 r2].
    + discriminate (Z _ H1 E).
    + rewrite E. apply same_loop; auto. cbn [p_rc].
      exists (concat (x2 :: r2)). split; [rewrite <- E|]; split; auto using good_init; apply good_init; auto.
Qed.

Lemma reads_all_ok : forall d sub, dg_ok d ->
  (length (d_groups d) = 1%nat -> d_idsize d = 0) ->
  (forall g, In g (d_groups d) -> sub (g_id g) = true) -> reads_all d sub.
Proof.
  intros d sub H H1 HS id g HZ FG. unfold find_group in FG.
  rewrite cg_map_nodup in FG by apply H.
  destruct (d_groups d) as [|a [|b r]] eqn:EG.
  - discriminate.
  - specialize (HZ (H1 eq_refl)). cbn in HZ. injection HZ as <-.
    rewrite in_id_list_in; auto; [apply HS; left; auto|rewrite EG; left; auto].
  - rewrite <- EG in *. apply find_some in FG as [Hin Q]. apply N.eqb_eq in Q. subst id.
    rewrite in_id_list_in; auto.
Qed.

(* ------------------------------------------------------------------ *)
(** ** Subscription and counts *)

Lemma expected_filter : forall recs d sub prev,
  expected d sub prev recs =
  filter (fun e => sub (e_id e)) (expected d (fun _ => true) prev recs).
Proof.
  induction recs as [|r t IH]; intros; [reflexivity|].
  cbn [expected]. rewrite filter_app, IH. f_equal.
  destruct (sub (r_id r)) eqn:S; cbn [andb].
  - destruct (occ (r_id r) prev <? nof_of d (r_id r)); cbn; rewrite ?S; reflexivity.
  - destruct (occ (r_id r) prev <? nof_of d (r_id r)); cbn; rewrite ?S; reflexivity.
Qed.

Lemma expected_ext : forall recs d sub sub' prev,
  (forall r, In r recs -> sub (r_id r) = sub' (r_id r)) ->
  expected d sub prev recs = expected d sub' prev recs.
Proof.
  induction recs as [|r t IH]; intros; [reflexivity|].
  cbn [expected]. rewrite (H r) by (left; auto). f_equal. apply IH. intros; apply H; right; auto.
Qed.

Lemma occ_app : forall id a b, occ id (a ++ b) = occ id a + occ id b.
Proof. intros. unfold occ. rewrite filter_app, app_length. lia. Qed.

Lemma occ_cons : forall id r t, occ id (r :: t) = (if r_id r =? id then 1 else 0) + occ id t.
Proof. intros. unfold occ. cbn [filter]. destruct (r_id r =? id); cbn [length]; lia. Qed.

Lemma expected_all : forall recs d sub prev, dg_ok d -> Forall (rec_ok d) recs ->
  (forall r, In r recs -> sub (r_id r) = true) ->
  (forall g, In g (d_groups d) -> occ (g_id g) (prev ++ recs) <= g_nof g) ->
  map ev_rec (expected d sub prev recs) = recs /\
  forall i e, nth_error (expected d sub prev recs) i = Some e ->
    e_sample e = occ (e_id e) (prev ++ firstn i recs).
Proof.
  induction recs as [|r t IH]; intros d sub prev H F HS HC.
  - split; [reflexivity|]. intros i e Hi. destruct i; discriminate.
  - inversion F as [|? ? HR HF]; subst.
    destruct (IH d sub (prev ++ [r]) H HF) as [I1 I2].
    { intros; apply HS; right; auto. }
    { intros g Hg. rewrite <- app_assoc. apply HC; auto. }
    rewrite expected_cons. unfold ev_of. rewrite HS by (left; auto).
    destruct HR as (g & Hin & E & R).
    assert (L : (occ (r_id r) prev <? nof_of d (r_id r)) = true).
    { rewrite <- E, (nof_of_in _ _ H Hin). specialize (HC g Hin).
      rewrite occ_app, occ_cons in HC. rewrite <- E, N.eqb_refl in HC. lia. }
    rewrite L. cbn [andb app map]. split.
    + rewrite I1. unfold ev_rec; cbn. destruct r; reflexivity.
    + intros i e Hi. destruct i as [|i]; cbn [nth_error] in Hi.
      * injection Hi as <-. cbn. rewrite app_nil_r. reflexivity.
      * specialize (I2 i e Hi). rewrite I2, <- app_assoc. reflexivity.
Qed.
