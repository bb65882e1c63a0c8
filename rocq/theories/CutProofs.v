(** Files of interrupted calls. *)
From Verif Require Import Base BlockModel BlockSpec BlockProofs BlockProofs2 BlockProofs3 BlockProofs4
  MetaModel MetaSpec MetaProofs MetaProofs3 DataModel IdentModel IdentSpec IdentProofs QueueModel
  MeasModel MeasSpec MeasProofs MeasProofs2 MeasProofs3 MeasProofs4 MeasProofs5 CutModel CutSpec.
Local Open Scope N_scope.

Lemma puts_appended : forall bs j f, puts f (firstn j (appended (length f) bs)) = f ++ firstn j bs.
Proof.
  induction bs as [|b bs IH]; intros [|j] f; cbn [appended firstn]; try (unfold puts; cbn [fold_left]; rewrite app_nil_r; reflexivity).
  rewrite puts_cons, put_end. replace (S (length f)) with (length (f ++ [b])) by (rewrite app_length; cbn [length]; lia).
  rewrite IH, <- app_assoc. reflexivity.
Qed.

Lemma appended_length : forall bs n, length (appended n bs) = length bs.
Proof. induction bs; intros n; cbn [appended length]; auto. Qed.

Lemma puts_appended_all : forall bs f, puts f (appended (length f) bs) = f ++ bs.
Proof.
  intros bs f. pose proof (puts_appended bs (length bs) f) as H. rewrite !firstn_all2 in H; auto.
  rewrite appended_length. lia.
Qed.

(* ------------------------------------------------------------------ *)
(** ** Some of the counters *)

Lemma between_mix : forall c e j g, between c (Some e) g (mix_cg j (counted c g) (counted (Some e) g)).
Proof.
  intros c e j g. unfold between, mix_cg.
  exists (if (1 <=? j)%nat then g_samples (counted (Some e) g) else g_samples (counted c g)).
  exists (if is_vlsd (counted c g) && (2 <=? j)%nat then g_data (counted (Some e) g) else g_data (counted c g)).
  exists (if is_vlsd (counted c g) && (3 <=? j)%nat then g_inval (counted (Some e) g) else g_inval (counted c g)).
  split; [destruct c; reflexivity|].
  split; [destruct (1 <=? j)%nat; auto|]. split; destruct (is_vlsd (counted c g)); cbn [andb]; auto.
  - destruct (2 <=? j)%nat; auto.
  - destruct (3 <=? j)%nat; auto.
Qed.

Lemma counted_same : forall c e g, same_cg (counted c g) (counted (Some e) g).
Proof. intros c e g. rewrite <- (count_again c e g). apply count_same. Qed.

Lemma cut_cgs : forall c e gs j, exists gs2 us2, patches write_cg no_place (map (counted c) gs) gs2 us2 /\
  (forall pls, zip_writes us2 pls = firstn j (zip_writes (map cg_up (map (counted (Some e)) gs)) pls)) /\
  Forall2 (between c (Some e)) gs gs2.
Proof.
  intros c e. induction gs as [|g gs IH]; intros j.
  - exists [], []. split; [constructor|]. split; [|constructor]. intros pls. cbn [map]. unfold zip_writes. cbn [combine map concat].
    symmetry. apply firstn_nil.
  - set (g' := counted (Some e) g).
    destruct (IH (j - (if is_vlsd g' then 3 else 1))%nat) as (gs2 & us2 & A & B & C).
    exists (mix_cg j (counted c g) g' :: gs2), ((fun '(p, _) => firstn j (cg_writes p g')) :: us2).
    cbn [map]. split; [constructor; [apply patch_cg_cut; apply counted_same|exact A]|]. split.
    + intros [|[p u] pls]; [unfold zip_writes; cbn [combine map concat]; symmetry; apply firstn_nil|].
      unfold zip_writes in *. cbn [combine map concat]. fold g'. change (cg_up g' (p, u)) with (cg_writes p g').
      rewrite firstn_app, cg_writes_length, B. reflexivity.
    + constructor; [apply between_mix|exact C].
Qed.

Lemma between_ok : forall c c' g g2, cg_ok g -> between c c' g g2 -> cg_ok g2.
Proof.
  intros c c' g g2 H (s & da & di & -> & Hs & Hd & Hi).
  pose proof (counted_ok c g H) as H1. pose proof (counted_ok c' g H) as H2.
  destruct H as (A1 & _ & A3 & A4 & _ & _ & A7).
  destruct H1 as (_ & B2 & _ & _ & B5 & B6 & _). destruct H2 as (_ & C2 & _ & _ & C5 & C6 & _).
  unfold cg_ok. cbn [g_record g_samples g_flags g_separator g_data g_inval g_name g_si g_md g_cns].
  split; [exact A1|]. split; [destruct Hs as [->| ->]; auto|]. split; [exact A3|]. split; [exact A4|].
  split; [destruct Hd as [->| ->]; auto|]. split; [destruct Hi as [->| ->]; auto|]. exact A7.
Qed.

(* ------------------------------------------------------------------ *)
(** ** The DT block *)

Lemma dt_steps_get : forall k p d m m1 b1, (0 < length (m_file m))%nat -> get_dt k p d m = Ok (m1, b1) ->
  m_file m1 = puts (m_file m) (dt_steps k p m) /\ dt_place k m = (b_pos b1, b_len b1) /\
  forall j, (j < length (dt_steps k p m))%nat -> exists x, puts (m_file m) (firstn j (dt_steps k p m)) = m_file m ++ x.
Proof.
  intros k p d m m1 b1 NE E. unfold get_dt, dt_steps, dt_place in *. destruct (find_dt k (m_dts m)) as [b|].
  - apply ok_pair in E. destruct E as [<- <-]. split; [reflexivity|]. split; [reflexivity|]. intros j L. cbn [length] in L. lia.
  - destruct (d_link d =? 0); [|discriminate]. rewrite write_block4_spec in E by exact NE. cbn [bind b_pos length] in E.
    apply ok_pair in E. destruct E as [<- <-]. cbn [m_file b_pos b_len].
    replace (N.of_nat (24 + 8 * 0 + 0)) with 24 by reflexivity.
    split.
    { rewrite puts_app, puts_appended_all, puts_cons. unfold puts. cbn [fold_left]. rewrite app_nil_r. reflexivity. }
    split; [reflexivity|]. intros j L. rewrite app_length in L. cbn [length] in L.
    rewrite firstn_app. replace (j - _)%nat with 0%nat by lia. cbn [firstn]. rewrite app_nil_r, puts_appended. eexists. reflexivity.
Qed.

(* ------------------------------------------------------------------ *)
(** ** A save *)

Definition set_cgs (gs : list cg) (d : dg) : dg := mkDg (d_idsize d) (d_md d) (d_link d) gs.

Lemma save_cut : forall i h src cur pay cn tm m hk W T b k d0 bytes e,
  inv i h src cur pay cn tm m hk W T b -> nth_error (h_dgs h) k = Some d0 ->
  (In k src -> cur = Some k) -> (~ In k src -> d_link d0 = 0 /\ pay k = []) ->
  (forall m', save_group k bytes e m = Ok m' -> m_file m' = puts (m_file m) (save_steps k bytes e m)) /\
  forall j, (j < length (save_steps k bytes e m))%nat ->
  let F := puts (m_file m) (firstn j (save_steps k bytes e m)) in
  (exists x, F = m_file m ++ x) \/
  (exists m1 hk1 W1 T1 gs2 W2 x, inv i h (k :: src) (Some k) pay cn tm m1 hk1 W1 T1 b /\
     write_file i (set_dgs hk1 (upd_nth k (set_cgs gs2) (h_dgs hk1))) [] = Ok (W2, b) /\ length W2 = length W1 /\
     F = W2 ++ T1 ++ x /\ Forall2 (between (cn k) (Some e)) (d_cgs d0) gs2).
Proof.
  intros i h src cur pay cn tm m hk W T b k d0 bytes e I E0 IC IN.
  pose proof (iv_dgs _ _ _ _ _ _ _ _ _ _ _ _ I k d0 E0) as E1.
  assert (LK : (k < length (m_places m))%nat).
  { rewrite (iv_places _ _ _ _ _ _ _ _ _ _ _ _ I). pose proof (iv_write _ _ _ _ _ _ _ _ _ _ _ _ I) as Iw.
    unfold write_file in Iw. rewrite (hd_places_length _ _ _ _ Iw). apply nth_error_Some. rewrite E1. discriminate. }
  apply nth_error_Some in LK. destruct (nth_error (m_places m) k) as [[p cgs]|] eqn:EP; [|congruence]. clear LK.
  assert (NE : (0 < length (m_file m))%nat).
  { pose proof (iv_ne _ _ _ _ _ _ _ _ _ _ _ _ I) as Ie. rewrite (iv_file _ _ _ _ _ _ _ _ _ _ _ _ I), app_length. lia. }
  unfold save_group, save_steps. rewrite EP. rewrite (iv_mem _ _ _ _ _ _ _ _ _ _ _ _ I).
  replace (h_dgs (set_time (fst tm) hk)) with (h_dgs hk) by reflexivity. rewrite E1.
  destruct (get_dt_inv _ _ _ _ _ _ _ _ _ _ _ _ k d0 p cgs I E0 IC IN EP) as (m1 & b1 & hk1 & W1 & T1 & EG & F & I1 & PL).
  destruct (dt_steps_get _ _ _ _ _ _ NE EG) as (EF & -> & CUT). rewrite EG. cbn [bind]. rewrite <- EF.
  set (s1 := dt_steps k p m) in *. clearbody s1. clear IC IN EG E1. rewrite <- PL in EP.
  rewrite dg_is_again. set (l0 := link_of (m_dts m) k d0). clearbody l0.
  pose proof I1 as I1'.
  destruct I1 as [Iw Ie If Ip Ipl It Im Ih Il Id In0 Idt Ic].
  destruct (Idt k (or_introl eq_refl)) as (bk & Fk & Tk & Lk & Sk & Wk & Hk).
  rewrite F in Fk. apply some_eq in Fk. subst bk.
  set (d2 := dg_is (Some e) l0 d0). set (size := N.of_nat (length (m_file m1) + length bytes - b_pos b1)).
  assert (SZ : N.of_nat (length (m_file m1 ++ bytes) - b_pos b1) = size) by (rewrite app_length; reflexivity).
  rewrite SZ. clear SZ. clearbody size.
  set (s4 := if b_len b1 =? size then [] else [((b_pos b1 + 8)%nat, le_bytes 8 size)]).
  set (n2 := length (m_file m1)). split.
  - intros m' E. rewrite !puts_app, <- EF. unfold n2. rewrite puts_appended_all. unfold update_size4 in E.
    replace (b_pos b1 =? 0)%nat with false in E by (symmetry; apply Nat.eqb_neq; lia).
    unfold s4. destruct (b_len b1 =? size); cbn [bind] in E; injection E as <-; reflexivity.
  - intros j LJ. cbv zeta.
    assert (C3 : forall bs j3, exists gs2 W2,
       write_file i (set_dgs hk1 (upd_nth k (set_cgs gs2) (h_dgs hk1))) [] = Ok (W2, b) /\ length W2 = length W1 /\
       puts (m_file m1 ++ bs) (firstn j3 (dg_writes cgs d2)) = W2 ++ T1 ++ bs /\
       Forall2 (between (cn k) (Some e)) (d_cgs d0) gs2).
    { intros bs j3. destruct (cut_cgs (cn k) e (d_cgs d0) j3) as (gs2 & us2 & P & Z & B).
      pose proof (Id k d0 E0) as Ed.
      assert (P1 : patches write_dg dg_places (h_dgs hk1) (upd_nth k (set_cgs gs2) (h_dgs hk1))
            (at_k k (length (h_dgs hk1)) (fun '(_, cgs) => zip_writes us2 cgs))).
      { apply (patches_at _ _ _ (set_cgs gs2) k _ _ Ed). apply patch_dg_cgs. exact P. }
      destruct (file_patch _ _ _ _ _ _ Iw P1) as (A1 & B1 & _). clear P1.
      assert (EZ : zip_writes (at_k k (length (h_dgs hk1)) (fun '(_, cgs) => zip_writes us2 cgs))
            (hd_places hk1 (write_id false i [])) = firstn j3 (dg_writes cgs d2)).
      { rewrite <- Ipl. rewrite (zip_at _ k _ _ (p, cgs)); [rewrite Z, dg_writes_zip; reflexivity| |exact EP].
        apply nth_error_Some. rewrite Ed. discriminate. }
      rewrite EZ in A1, B1. exists gs2, (puts W1 (firstn j3 (dg_writes cgs d2))). split; [exact A1|].
      split; [apply puts_length; exact B1|]. split; [|exact B]. rewrite If, <- app_assoc. apply puts_ext. exact B1. }
    destruct (Nat.lt_ge_cases j (length s1)) as [L1|L1].
    { left. rewrite firstn_app. replace (j - length s1)%nat with 0%nat by lia. cbn [firstn]. rewrite app_nil_r. apply CUT. exact L1. }
    right. rewrite firstn_app, (firstn_all2 s1), puts_app, <- EF by lia.
    set (j1 := (j - length s1)%nat).
    destruct (Nat.lt_ge_cases j1 (length bytes)) as [L2|L2].
    + rewrite firstn_app, appended_length. replace (j1 - length bytes)%nat with 0%nat by lia. cbn [firstn]. rewrite app_nil_r.
      unfold n2. rewrite puts_appended. destruct (C3 (firstn j1 bytes) 0%nat) as (gs2 & W2 & Q1 & Q2 & Q3 & Q4).
      exists m1, hk1, W1, T1, gs2, W2, (firstn j1 bytes). auto.
    + rewrite firstn_app, appended_length, firstn_all2 by (rewrite appended_length; lia).
      rewrite puts_app. unfold n2. rewrite puts_appended_all. set (j2 := (j1 - length bytes)%nat).
      assert (L3 : (j2 <= length (dg_writes cgs d2))%nat).
      { rewrite !app_length, appended_length in LJ. unfold j2, j1. assert (length s4 <= 1)%nat by (unfold s4; destruct (b_len b1 =? size); cbn; lia). lia. }
      rewrite firstn_app. replace (j2 - length (dg_writes cgs d2))%nat with 0%nat by lia. cbn [firstn]. rewrite app_nil_r.
      destruct (C3 bytes j2) as (gs2 & W2 & Q1 & Q2 & Q3 & Q4).
      exists m1, hk1, W1, T1, gs2, W2, bytes. auto.
Qed.
