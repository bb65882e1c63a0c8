(** Files of interrupted calls of a compressed measurement. *)
From Verif Require Import Base BlockModel BlockSpec BlockProofs BlockProofs2 BlockProofs3 BlockProofs4
  MetaModel MetaSpec MetaProofs MetaProofs3 DataModel DataSpec DataProofs ListProofs StoreProofs StoreProofs2
  IdentModel IdentSpec IdentProofs QueueModel
  MeasModel MeasSpec MeasProofs MeasProofs2 MeasProofs3 MeasProofs4 MeasProofs5 CutModel CutSpec CutProofs CutProofs2
  CompModel CompSpec CompProofs CompProofs2 CompProofs3 CompCutModel CompCutProofs.
Local Open Scope N_scope.

Lemma cut_counters : forall i hk W b k d0 c l e p cgs j, write_file i hk [] = Ok (W, b) ->
  nth_error (h_dgs hk) k = Some (dg_is c l d0) -> nth_error (hd_places hk (write_id false i [])) k = Some (p, cgs) ->
  let ws := firstn j (dg_writes cgs (dg_is (Some e) l d0)) in
  exists gs2, write_file i (set_dgs hk (upd_nth k (set_cgs gs2) (h_dgs hk))) [] = Ok (puts W ws, b) /\
    length (puts W ws) = length W /\ (forall T, puts (W ++ T) ws = puts W ws ++ T) /\
    Forall2 (between c (Some e)) (d_cgs d0) gs2.
Proof.
  intros i hk W b k d0 c l e p cgs j Iw Ed EP ws.
  destruct (cut_cgs c e (d_cgs d0) j) as (gs2 & us2 & P & Z & B).
  assert (P1 : patches write_dg dg_places (h_dgs hk) (upd_nth k (set_cgs gs2) (h_dgs hk))
        (at_k k (length (h_dgs hk)) (fun '(_, cgs) => zip_writes us2 cgs))).
  { apply (patches_at _ _ _ (set_cgs gs2) k _ _ Ed). apply patch_dg_cgs. exact P. }
  destruct (file_patch _ _ _ _ _ _ Iw P1) as (A1 & B1 & _). clear P1.
  assert (EZ : zip_writes (at_k k (length (h_dgs hk)) (fun '(_, cgs) => zip_writes us2 cgs))
        (hd_places hk (write_id false i [])) = ws).
  { rewrite (zip_at _ k _ _ (p, cgs)); [rewrite Z; unfold ws; rewrite dg_writes_zip; reflexivity| |exact EP].
    apply nth_error_Some. rewrite Ed. discriminate. }
  rewrite EZ in A1, B1. exists gs2. split; [exact A1|]. split; [apply puts_length; exact B1|].
  split; [|exact B]. intros T. apply puts_ext. exact B1.
Qed.

Lemma tail_last : forall X f lo hl l gs hi last, (0 < lo)%nat -> tail_in X f lo hl l gs hi -> last_ok gs last ->
  let b := match last with Some b => b | None => hl end in
  (0 < b_pos b)%nat /\ (0 < length (b_links b))%nat /\ link b 0 = 0.
Proof.
  intros X f lo hl l gs hi last LO [A B C D E F] LK. destruct last as [b|]; cbv zeta.
  - destruct LK as (g0 & d0 & ks0 & ->). apply chain_in_app in D as (m & x & _ & D). cbn [chain_in] in D.
    destruct D as (mid & _ & _ & DA & _ & _ & D). destruct DA as (ps & P & _ & _ & K & _).
    split; [exact P|]. split; [rewrite K; cbn; lia|exact D].
  - unfold last_ok in LK. subst gs. cbn [chain_in] in D. destruct D as [_ ->]. destruct B as (fl & ty & _ & _ & P & EB & _).
    split; [exact P|]. rewrite EB. split; [cbn; lia|reflexivity].
Qed.

Lemma upd_same : forall {A} k (f : A -> A) l, (forall x, nth_error l k = Some x -> f x = x) -> upd_nth k f l = l.
Proof.
  induction k as [|k IH]; intros f [|x l] H; try reflexivity.
  - cbn. rewrite (H x eq_refl). reflexivity.
  - rewrite upd_cons. f_equal. apply IH. exact H.
Qed.

Lemma hl_new_length : length hl_new = 40%nat.
Proof. reflexivity. Qed.

Section Comp.
Context (deflate : list N -> list N).
Notation cinv := (cinv deflate).

Lemma store_cut : forall i h src done cn tm m hk W T b Xs k d0 full rest e,
  cinv i h src done cn tm m hk W T b Xs -> nth_error (h_dgs h) k = Some d0 ->
  (~ In k src -> d_link d0 = 0 /\ done k = []) ->
  let ws := store_steps deflate k full rest e m in
  let n := length (c_file m) in
  (forall m', store_group deflate k full rest e m = Ok m' -> c_file m' = puts (c_file m) ws) /\
  forall j, (j < length ws)%nat -> let F := puts (c_file m) (firstn j ws) in
    (exists x, F = c_file m ++ x) \/
    (exists l gs2 W2 x, let hk1 := set_dgs hk (upd_nth k (set_link l) (h_dgs hk)) in
       write_file i (set_dgs hk1 (upd_nth k (set_cgs gs2) (h_dgs hk1))) [] = Ok (W2, b) /\ length W2 = length W /\
       F = W2 ++ T ++ x /\ Forall2 (between (cn k) (Some e)) (d_cgs d0) gs2 /\
       (In k src -> l = lk_of (c_sts m) k d0) /\
       (~ In k src -> l = N.of_nat (n + pad8 n) /\ exists y, x = repeat 0 (pad8 n) ++ y /\
          ((exists t, y = firstn t hl_new) \/ exists z, y = hl_new ++ z))).
Proof.
  intros i h src done cn tm m hk W T b Xs k d0 full rest e I E0 IN ws n.
  pose proof (cv_dgs _ _ _ _ _ _ _ _ _ _ _ _ _ I k d0 E0) as E1.
  assert (LK : (k < length (c_places m))%nat).
  { rewrite (cv_places _ _ _ _ _ _ _ _ _ _ _ _ _ I). pose proof (cv_write _ _ _ _ _ _ _ _ _ _ _ _ _ I) as Iw.
    unfold write_file in Iw. rewrite (hd_places_length _ _ _ _ Iw). apply nth_error_Some. rewrite E1. discriminate. }
  apply nth_error_Some in LK. destruct (nth_error (c_places m) k) as [[p cgs]|] eqn:EP; [|congruence]. clear LK.
  unfold store_group, ws, store_steps. rewrite EP. rewrite (cv_mem _ _ _ _ _ _ _ _ _ _ _ _ _ I).
  replace (h_dgs (set_time (fst tm) hk)) with (h_dgs hk) by reflexivity. rewrite E1. clear ws. fold n.
  set (lk := lk_of (c_sts m) k d0) in *. rewrite dg_is_again. cbn [d_link dg_is]. fold (dg_is (Some e) lk d0).
  set (chunks := step_chunks full rest). set (blocks := step_blocks deflate full rest).
  assert (LB : Forall len_ok blocks) by apply step_len.
  destruct I as [Iw Ie If Ip Ipl It Im Ih Il Id In0 Ist Idis]. rewrite Ipl in EP.
  destruct (in_dec Nat.eq_dec k src) as [K|K].
  - (* a data group with data *)
    destruct (Ist k K) as (s & li & gs & hi & F & TI & LA & SR & OF). unfold lk, lk_of in *. rewrite F in *.
    destruct (tail_last _ _ (length W) _ _ _ _ _ ltac:(lia) TI LA) as (LP & LL & LZ).
    assert (HP : (0 < b_pos (k_hl s))%nat) by (pose proof (ti_lo _ _ _ _ _ _ _ TI); lia).
    set (l := N.of_nat (b_pos (k_hl s))) in *.
    assert (NZ : (l =? 0) = false) by (apply N.eqb_neq; lia).
    unfold last_steps. rewrite NZ. cbn [app].
    set (cw := dg_writes cgs (dg_is (Some e) l d0)).
    set (d := chunks_dl (k_off s) chunks). set (dls := dl_steps n d blocks).
    replace (match s with mkC _ (Some last) _ => b_pos last | _ => b_pos (k_hl s) end)
      with (b_pos (match k_last s with Some b => b | None => k_hl s end)) by (destruct s as [hl0 [la|] o0]; reflexivity).
    set (r := [((b_pos (match k_last s with Some b => b | None => k_hl s end) + 24)%nat, le_bytes 8 (N.of_nat (n + pad8 n)))]).
    assert (CW : forall j, exists gs2, let ws := firstn j cw in
      write_file i (set_dgs hk (upd_nth k (set_cgs gs2) (h_dgs hk))) [] = Ok (puts W ws, b) /\
      length (puts W ws) = length W /\ (forall T, puts (W ++ T) ws = puts W ws ++ T) /\
      Forall2 (between (cn k) (Some e)) (d_cgs d0) gs2).
    { intros j. apply (cut_counters i hk W b k d0 (cn k) l e p cgs j Iw E1 EP). }
    assert (LC : forall j, length (puts (c_file m) (firstn j cw)) = n).
    { intros j. destruct (CW j) as (gs2 & _ & C2 & C3 & _). unfold n. rewrite If, C3, !app_length. lia. }
    split.
    + intros m' E. cbn [option_map] in E. unfold set_last in E. rewrite NZ in E. fold d in E.
      unfold store_dl in E. cbn [st_file st_dg st_hl st_last] in E. unfold link at 1 in E. cbn [b_links nth] in E. rewrite NZ in E. cbn [bind] in E.
      fold cw in E. set (f2 := puts (c_file m) cw) in *.
      assert (L2 : length f2 = n) by (specialize (LC (length cw)); rewrite firstn_all in LC; exact LC).
      destruct (write_dl_steps d blocks f2 ltac:(rewrite L2; unfold n; rewrite If, app_length; lia) LB) as (db & ED & PD).
      rewrite ED in E. cbn [bind] in E. rewrite L2 in E, PD. fold dls in E.
      rewrite !puts_app. fold f2. clear ED.
      assert (HE : forall hl', b_pos hl' = b_pos (k_hl s) -> update_link4 (mkB p ty_dg 64 [0; 0; l; 0]) 2 (N.of_nat (b_pos hl')) (puts (puts f2 dls) r)
         = Ok (puts (puts f2 dls) r, mkB p ty_dg 64 [0; 0; l; 0])).
      { intros hl' EH. unfold update_link4. cbn [b_links length link nth]. change (4 <=? 2)%nat with false. cbv iota.
        unfold link. cbn [b_links nth]. rewrite EH. fold l. rewrite N.eqb_refl. reflexivity. }
      assert (NN : N.of_nat (b_pos db) <> 0) by (rewrite PD; unfold n; rewrite If, app_length; lia).
      unfold r in *. destruct (k_last s) as [la|] eqn:EL; rewrite link_new in E; try exact LP; try exact LL; try exact LZ; try exact NN; cbn [bind] in E;
        rewrite PD in E; rewrite ?Nat.mul_0_r, ?Nat.add_0_r in E;
        (rewrite HE in E by reflexivity); cbn [bind st_file st_dg st_hl st_last] in E; injection E as <-; reflexivity.
    + intros j LJ. cbv zeta. right.
      destruct (CW j) as (gs2 & C1 & C2 & C3 & C4). cbv zeta in C1, C2, C3.
      assert (EF : exists x, puts (c_file m) (firstn j (cw ++ dls ++ r)) = puts W (firstn j cw) ++ T ++ x).
      { rewrite firstn_app, puts_app. rewrite !app_length in LJ. unfold r in LJ. cbn [length] in LJ.
        rewrite firstn_app. replace (j - length cw - length dls)%nat with 0%nat by lia. cbn [firstn]. rewrite app_nil_r.
        destruct (puts_beyond (firstn (j - length cw) dls) (puts (c_file m) (firstn j cw)) []) as [y EY].
        - rewrite LC. apply beyond_firstn. apply beyond_dl.
        - rewrite app_nil_r in EY. rewrite EY. exists y. rewrite If, C3, <- app_assoc. reflexivity. }
      destruct EF as [x EF]. exists l, gs2, (puts W (firstn j cw)), x.
      assert (EK : set_dgs hk (upd_nth k (set_link l) (h_dgs hk)) = hk).
      { rewrite upd_same; [destruct hk; reflexivity|]. intros z Z. rewrite E1 in Z. apply some_eq in Z. subst z. reflexivity. }
      cbv zeta. rewrite EK. split; [exact C1|]. split; [exact C2|]. split; [exact EF|]. split; [exact C4|].
      split; [reflexivity|]. intros H. exfalso. apply H. exact K.
  - (* the first data of a data group *)
    destruct (IN K) as [L0 D0]. pose proof (In0 k K) as F. unfold lk, lk_of in *. rewrite F in *. rewrite L0 in *. clear lk.
    cbn [option_map N.eqb]. unfold last_steps. cbn [N.eqb].
    assert (LF : n = (length W + length T)%nat) by (unfold n; rewrite If, app_length; reflexivity).
    set (pd := repeat 0 (pad8 n)). assert (LP : length pd = pad8 n) by apply repeat_length.
    set (n1 := (n + pad8 n)%nat). set (l := N.of_nat n1).
    assert (P0 : pad8 n1 = 0%nat) by apply pad8_again.
    set (lw := [((p + 24 + 8 * 2)%nat, le_bytes 8 l)]).
    set (cw := dg_writes cgs (dg_is (Some e) 0 d0)).
    set (n2 := block_end n1 hl_new). assert (N2 : n2 = (n1 + 40)%nat) by (unfold n2, block_end; rewrite P0, hl_new_length; lia).
    set (d := chunks_dl 0 chunks). set (dls := dl_steps n2 d blocks).
    set (r := [((n1 + pad8 n1 + 24)%nat, le_bytes 8 (N.of_nat (n2 + pad8 n2)))]).
    destruct (one_patch i hk W b k (dg_is (cn k) 0 d0) (set_link l) (fun '(p, _) => [(p + 24 + 8 * 2, le_bytes 8 l)]%nat) (p, cgs) Iw E1)
      as (A & B & C & D); [apply patch_dg_link|exact EP|]. fold lw in A, C, D.
    set (hk1 := set_dgs hk (upd_nth k (set_link l) (h_dgs hk))) in *.
    assert (E2 : nth_error (h_dgs hk1) k = Some (dg_is (cn k) l d0)).
    { unfold hk1. rewrite set_dgs_dgs, upd_nth_error, Nat.eqb_refl, E1. reflexivity. }
    assert (CW : forall j, exists gs2, let ws := firstn j cw in
      write_file i (set_dgs hk1 (upd_nth k (set_cgs gs2) (h_dgs hk1))) [] = Ok (puts (puts W lw) ws, b) /\
      length (puts (puts W lw) ws) = length (puts W lw) /\ (forall T, puts (puts W lw ++ T) ws = puts (puts W lw) ws ++ T) /\
      Forall2 (between (cn k) (Some e)) (d_cgs d0) gs2).
    { intros j. apply (cut_counters i hk1 (puts W lw) b k d0 (cn k) l e p cgs j A E2). rewrite B. exact EP. }
    assert (ES : puts (c_file m) (appended n pd ++ lw) = puts W lw ++ T ++ pd).
    { unfold n. rewrite puts_app, puts_appended_all, If, <- app_assoc. apply D. }
    assert (LC : forall j, length (puts (puts W lw ++ T ++ pd) (firstn j cw)) = n1).
    { intros j. destruct (CW j) as (gs2 & _ & C2 & C3 & _). rewrite C3, !app_length. unfold n1. lia. }
    assert (HB : forall f : file, length f = n1 -> block_steps n1 hl_new = appended (length f) hl_new).
    { intros f EL. unfold block_steps. rewrite P0, EL. reflexivity. }
    split.
    + intros m' E. unfold set_last in E. cbn [N.eqb] in E. fold d in E.
      assert (EA : align (c_file m) = c_file m ++ pd) by reflexivity.
      assert (LA : length (align (c_file m)) = n1) by (rewrite EA, app_length, LP; reflexivity).
      rewrite LA in E. fold l in E. change (put (align (c_file m)) (p + 24 + 8 * 2) (le_bytes 8 l)) with (puts (align (c_file m)) lw) in E.
      replace (puts (align (c_file m)) lw) with (puts W lw ++ T ++ pd) in E by (rewrite EA, If, <- app_assoc; symmetry; apply D).
      rewrite !puts_app. rewrite <- (puts_app (appended n pd) lw), ES.
      unfold store_dl in E. cbn [st_file st_dg st_hl st_last] in E. unfold link at 1 in E. cbn [b_links nth] in E.
      assert (NZ : (l =? 0) = false) by (apply N.eqb_neq; unfold l, n1; lia). rewrite NZ in E. cbn [bind] in E.
      fold cw in E. set (f2 := puts (puts W lw ++ T ++ pd) cw) in *.
      assert (L2 : length f2 = n1) by (specialize (LC (length cw)); rewrite firstn_all in LC; exact LC).
      unfold write_hl in E. rewrite write_new in E; [|lia|reflexivity]. cbn [bind] in E. rewrite L2 in E.
      change (new_block ty_hl 40 [0] (le_bytes 2 0 ++ le_bytes 1 0 ++ repeat 0 5)) with hl_new in E.
      set (f3 := puts f2 (block_steps n1 hl_new)) in *.
      assert (L3 : length f3 = n2).
      { unfold f3. rewrite (HB f2 L2), puts_appended_all, app_length, hl_new_length. lia. }
      destruct (write_dl_steps d blocks f3 ltac:(lia) LB) as (db & ED & PD).
      rewrite ED in E. cbn [bind] in E. rewrite L3 in E, PD. fold dls in E. clear ED.
      rewrite link_new in E; [|cbn [b_pos]; lia|cbn; lia|reflexivity|lia]. cbn [bind b_pos] in E.
      rewrite PD in E. rewrite ?Nat.mul_0_r, ?Nat.add_0_r in E. fold r in E.
      assert (HE : update_link4 (mkB p ty_dg 64 [0; 0; l; 0]) 2 (N.of_nat (n1 + pad8 n1)) (puts (puts f3 dls) r)
         = Ok (puts (puts f3 dls) r, mkB p ty_dg 64 [0; 0; l; 0])).
      { unfold update_link4. cbn [b_links length link nth]. change (4 <=? 2)%nat with false. cbv iota.
        unfold link. cbn [b_links nth]. rewrite P0, Nat.add_0_r. fold l. rewrite N.eqb_refl. reflexivity. }
      rewrite HE in E. cbn [bind st_file st_dg st_hl st_last] in E. injection E as <-. reflexivity.
    + intros j LJ. cbv zeta.
      set (s1 := appended n pd ++ lw) in *.
      assert (L1 : length s1 = S (pad8 n)) by (unfold s1, lw; rewrite app_length, appended_length, LP; cbn [length]; lia).
      destruct (Nat.lt_ge_cases j (length s1)) as [J1|J1].
      { left. rewrite firstn_app. replace (j - length s1)%nat with 0%nat by lia. cbn [firstn]. rewrite app_nil_r.
        unfold s1. rewrite firstn_app, appended_length, LP. replace (j - pad8 n)%nat with 0%nat by lia. cbn [firstn]. rewrite app_nil_r.
        unfold n. rewrite puts_appended. eexists. reflexivity. }
      right. rewrite firstn_app, (firstn_all2 s1), puts_app, ES by lia. set (j1 := (j - length s1)%nat).
      rewrite firstn_app, puts_app. destruct (CW j1) as (gs2 & C1 & C2 & C3 & C4). cbv zeta in C1, C2, C3.
      set (j2 := (j1 - length cw)%nat). set (f2 := puts (puts W lw ++ T ++ pd) (firstn j1 cw)).
      assert (L2 : length f2 = n1) by apply LC.
      assert (EY : exists y, puts f2 (firstn j2 (block_steps n1 hl_new ++ dls ++ r)) = f2 ++ y /\
         ((exists t, y = firstn t hl_new) \/ exists z, y = hl_new ++ z)).
      { rewrite (HB f2 L2), firstn_app, appended_length, hl_new_length.
        destruct (Nat.lt_ge_cases j2 40) as [J2|J2].
        - replace (j2 - 40)%nat with 0%nat by lia. cbn [firstn]. rewrite app_nil_r, puts_appended. eexists. split; [reflexivity|]. left. eauto.
        - rewrite (firstn_all2 (appended _ _)) by (rewrite appended_length, hl_new_length; lia). rewrite puts_app, puts_appended_all.
          rewrite firstn_app. replace (j2 - 40 - length dls)%nat with 0%nat.
          + cbn [firstn]. rewrite app_nil_r.
            destruct (puts_beyond (firstn (j2 - 40) dls) (f2 ++ hl_new) []) as [y EY].
            * apply beyond_firstn. unfold dls. rewrite app_length, L2, hl_new_length, <- N2. apply beyond_dl.
            * rewrite app_nil_r in EY. exists (hl_new ++ y). rewrite EY, <- app_assoc. split; [reflexivity|]. right. eauto.
          + rewrite !app_length, (HB f2 L2), appended_length, hl_new_length in LJ. unfold r in LJ. cbn [length] in LJ. unfold j2, j1. lia. }
      destruct EY as (y & EY & HY). exists l, gs2, (puts (puts W lw) (firstn j1 cw)), (pd ++ y).
      cbv zeta. fold hk1. split; [exact C1|]. split; [lia|]. split.
      { rewrite EY. unfold f2. rewrite C3, <- !app_assoc. reflexivity. }
      split; [exact C4|]. split; [intros H; exfalso; apply K; exact H|]. intros _. split; [reflexivity|]. exists y. split; [reflexivity|exact HY].
Qed.

Lemma final_ccut : forall i h src done cn tm m hk W T b Xs, cinv i h src done cn tm m hk W T b Xs ->
  forall j, (0 < j)%nat -> puts (c_file m) (firstn j (hd_writes (c_head m) (c_places m) (c_hd m))) = c_file (finish m).
Proof.
  intros i h src done cn tm m hk W T b Xs [Iw Ie If Ip Ipl It Im Ih Il Id In0 Ist Idis].
  set (h' := set_time (fst tm) hk). fold h' in Im.
  assert (SP : same_parts hk h') by (repeat split).
  assert (NE : (0 < length (write_id false i []))%nat) by (rewrite write_id_new, id_bytes_length; lia).
  unfold write_file in Iw. destruct (hd_patch_fields _ _ _ _ _ NE SP Iw) as (A & B & C & _).
  set (w0 := [(b_pos b + 72, fields_bytes (hd_fields h'))]%nat) in *.
  assert (L0 : length (puts W w0) = length W) by (apply puts_length; exact B).
  assert (EW : hd_writes (c_head m) (c_places m) (c_hd m) =
     (b_pos b + 72, fields_bytes (hd_fields h'))%nat :: zip_writes (map dg_up (h_dgs h')) (c_places m)).
  { unfold hd_writes. rewrite Ip, Im. f_equal. unfold zip_writes.
    generalize (c_places m). generalize (h_dgs h'). clear. intros ds.
    induction ds as [|d ds IH]; intros [|[p cgs] pls]; cbn [combine map concat]; auto. rewrite IH. reflexivity. }
  assert (NO : forall j, (0 < j)%nat -> puts (c_file m) (firstn j (hd_writes (c_head m) (c_places m) (c_hd m))) = puts W w0 ++ T).
  { intros [|j] L; [lia|]. rewrite EW. cbn [firstn]. rewrite puts_cons.
    destruct (noop_dgs (h_dgs h') (c_places m) j) as (us2 & P & Z).
    destruct (file_patch i h' (puts W w0) b _ _ A P) as (A2 & B2 & _).
    assert (SE : set_dgs h' (h_dgs h') = h') by reflexivity. rewrite SE in A2. clear SE.
    rewrite C, <- Ipl, Z in A2, B2. unfold write_file in A2. rewrite A in A2. apply ok_pair in A2. destruct A2 as [A2 _].
    change (put (c_file m) (b_pos b + 72) (fields_bytes (hd_fields h')))%nat with (puts (c_file m) w0).
    rewrite If, puts_ext by exact B. rewrite puts_ext by exact B2. rewrite <- A2. reflexivity. }
  intros j L. rewrite (NO j L). unfold finish. cbn [c_file].
  rewrite <- (firstn_all (hd_writes (c_head m) (c_places m) (c_hd m))). symmetry. apply NO. rewrite EW. cbn [length]. lia.
Qed.
End Comp.
