(** The file during a measurement with compression. *)
From Verif Require Import Base BlockModel BlockSpec BlockProofs BlockProofs2 BlockProofs3 BlockProofs4
  MetaModel MetaSpec MetaProofs MetaProofs3 DataModel DataSpec DataProofs ListProofs StoreProofs StoreProofs2
  IdentModel IdentSpec IdentProofs QueueModel
  MeasModel MeasSpec MeasProofs MeasProofs2 MeasProofs3 MeasProofs4 CompModel CompSpec CompProofs.
Local Open Scope N_scope.

Lemma one_patch : forall i hk W b k d fn u z, write_file i hk [] = Ok (W, b) -> nth_error (h_dgs hk) k = Some d ->
  patch write_dg dg_places d (fn d) u -> nth_error (hd_places hk (write_id false i [])) k = Some z ->
  let hk' := set_dgs hk (upd_nth k fn (h_dgs hk)) in
  write_file i hk' [] = Ok (puts W (u z), b) /\
  hd_places hk' (write_id false i []) = hd_places hk (write_id false i []) /\
  length (puts W (u z)) = length W /\ forall T, puts (W ++ T) (u z) = puts W (u z) ++ T.
Proof.
  intros i hk W b k d fn u z Iw E H EP hk'.
  destruct (file_patch _ _ _ _ _ _ Iw (patches_at _ _ _ _ _ _ _ E H)) as (A & B & C).
  assert (EZ : zip_writes (at_k k (length (h_dgs hk)) u) (hd_places hk (write_id false i [])) = u z).
  { apply zip_at; [|exact EP]. apply nth_error_Some. rewrite E. discriminate. }
  rewrite EZ in A, B. split; [exact A|]. split; [exact C|]. split; [apply puts_length; exact B|].
  intros T. apply puts_ext. exact B.
Qed.

Lemma upd_ext : forall {A} k (f g : A -> A) l, (forall x, nth_error l k = Some x -> f x = g x) -> upd_nth k f l = upd_nth k g l.
Proof.
  induction k as [|k IH]; intros f g [|x l] H; try reflexivity.
  - cbn. rewrite (H x eq_refl). reflexivity.
  - rewrite !upd_cons. f_equal. apply IH. exact H.
Qed.

Lemma upd_upd : forall {A} k (f g : A -> A) l, upd_nth k g (upd_nth k f l) = upd_nth k (fun x => g (f x)) l.
Proof.
  induction k as [|k IH]; intros f g [|x l]; try reflexivity. rewrite !upd_cons. f_equal. apply IH.
Qed.

Definition lk_of (sts : list (nat * cst)) (k : nat) (d : dg) : N :=
  match find_st k sts with Some s => N.of_nat (b_pos (k_hl s)) | None => d_link d end.

Lemma find_st_cons : forall k j s l, find_st k ((j, s) :: l) = if (j =? k)%nat then Some s else find_st k l.
Proof. reflexivity. Qed.

Section Comp.
Context (deflate : list N -> list N).

(** [hk] is what the file holds; [src] are the data groups with data, [done] their blocks and [cn]
    the counters; [tm] the times in memory and in the file; [Xs] where the data are. *)
Record cinv (i : idb) (h : hd) (src : list nat) (done : nat -> list (list (list N))) (cn : nat -> option enc)
  (tm : stamp4 * stamp4) (m : cmeas) (hk : hd) (W T : file) (b : blk) (Xs : nat -> area) : Prop := {
  cv_write : write_file i hk [] = Ok (W, b);
  cv_ne : (64 <= length W)%nat;
  cv_file : c_file m = W ++ T;
  cv_pos : c_head m = b_pos b;
  cv_places : c_places m = hd_places hk (write_id false i []);
  cv_times : tm = (h_time (c_hd m), h_time hk);
  cv_mem : c_hd m = set_time (fst tm) hk;
  cv_hk : hk = set_dgs (set_time (snd tm) h) (h_dgs hk);
  cv_len : length (h_dgs hk) = length (h_dgs h);
  cv_dgs : forall k d, nth_error (h_dgs h) k = Some d ->
    nth_error (h_dgs hk) k = Some (dg_is (cn k) (lk_of (c_sts m) k d) d);
  cv_none : forall k, ~ In k src -> find_st k (c_sts m) = None;
  cv_st : forall k, In k src -> exists s l gs hi, find_st k (c_sts m) = Some s /\
    tail_in (Xs k) (c_file m) (length W) (k_hl s) l gs hi /\ last_ok gs (k_last s) /\
    steps_rel deflate 0 (map strip gs) (done k) /\ k_off s = N.of_nat (length (concat (concat (done k))));
  cv_dis : forall j k q, In j src -> In k src -> j <> k -> Xs j q -> Xs k q -> False
}.

Lemma kept_front : forall (X : area) W W' T U, length W = length W' ->
  (forall i, X i -> (length W <= i < length (W ++ T))%nat) -> kept X (W ++ T) (W' ++ T ++ U).
Proof.
  intros X W W' T U L H. split; [rewrite !app_length; lia|]. intros i I. apply H in I. rewrite app_length in I.
  rewrite (nth_error_app2 W') by lia. rewrite (nth_error_app2 W) by lia. rewrite nth_error_app1 by lia. f_equal. lia.
Qed.

Lemma pad8_again : forall n, pad8 (n + pad8 n) = 0%nat.
Proof.
  intros n. destruct (pad8_align n) as [H _]. unfold pad8 at 1. rewrite H. reflexivity.
Qed.

Lemma prepare : forall i h src done cn tm m hk W T b Xs k d0 p cgs e,
  cinv i h src done cn tm m hk W T b Xs -> nth_error (h_dgs h) k = Some d0 ->
  (~ In k src -> d_link d0 = 0 /\ done k = []) -> nth_error (c_places m) k = Some (p, cgs) ->
  let st := find_st k (c_sts m) in
  let d := dg_is (cn k) (lk_of (c_sts m) k d0) d0 in
  let ws := dg_writes cgs (count_dg e d) in
  exists f l hl f1 W1 T1 X li gs hi,
    match st with Some _ => true | None => d_link d =? 0 end = true /\
    set_last p (d_link d) (c_file m) = (f, l) /\
    match option_map k_hl st with Some hl => Ok (puts f ws, hl) | None => write_hl 0 0 (puts f ws) end = Ok (f1, hl) /\
    l = N.of_nat (b_pos hl) /\ f1 = W1 ++ T1 /\ length W1 = length W /\
    (let hk1 := set_dgs hk (upd_nth k (fun d => set_link l (count_dg e d)) (h_dgs hk)) in
     write_file i hk1 [] = Ok (W1, b) /\ hd_places hk1 (write_id false i []) = c_places m) /\
    tail_in X f1 (length W) hl li gs hi /\
    last_ok gs (match st with Some s => k_last s | None => None end) /\
    steps_rel deflate 0 (map strip gs) (done k) /\
    match st with Some s => k_off s | None => 0 end = N.of_nat (length (concat (concat (done k)))) /\
    forall j, j <> k -> In j src -> kept (Xs j) (c_file m) f1 /\ forall q, Xs j q -> X q -> False.
Proof.
  intros i h src done cn tm m hk W T b Xs k d0 p cgs e I E0 IN EP st d ws.
  destruct I as [Iw Ie If Ip Ipl It Im Ih Il Id In0 Ist Idis].
  pose proof (Id k d0 E0) as E1. fold d in E1. rewrite Ipl in EP.
  assert (SC : forall l, Forall2 same_cg (d_cgs (set_link l d)) (map (count_cg e) (d_cgs d))).
  { intros l. apply Forall2_map_r. intros g. apply count_same. }
  assert (XB : forall j q, In j src -> Xs j q -> (length W <= q < length (W ++ T))%nat).
  { intros j q J Q. destruct (Ist j J) as (s & l & gs & hi & _ & TI & _). rewrite <- If. apply (ti_in _ _ _ _ _ _ _ TI). exact Q. }
  destruct (in_dec Nat.eq_dec k src) as [K|K].
  - destruct (Ist k K) as (s & li & gs & hi & F & TI & LK & SR & OF). unfold st. rewrite F. cbn [option_map].
    assert (DL : d_link d = N.of_nat (b_pos (k_hl s))) by (unfold d, lk_of; rewrite F; reflexivity).
    assert (HP : (0 < b_pos (k_hl s))%nat) by (pose proof (ti_lo _ _ _ _ _ _ _ TI); lia).
    destruct (one_patch i hk W b k d (count_dg e) (fun '(_, cgs) => dg_writes cgs (count_dg e d)) (p, cgs) Iw E1) as (A & B & C & D); auto.
    { pose proof (patch_dg_counts d _ (SC (d_link d))) as P. cbv zeta in P. exact P. }
    fold ws in A, C, D.
    assert (EU : upd_nth k (count_dg e) (h_dgs hk) = upd_nth k (fun d => set_link (N.of_nat (b_pos (k_hl s))) (count_dg e d)) (h_dgs hk)).
    { apply upd_ext. intros x Ex. rewrite E1 in Ex. apply some_eq in Ex. subst x. rewrite <- DL. reflexivity. }
    rewrite EU in A, B.
    assert (KF : forall j, In j src -> kept (Xs j) (c_file m) (puts W ws ++ T)).
    { intros j J. rewrite If. pose proof (kept_front (Xs j) W (puts W ws) T [] (eq_sym C)) as Q. rewrite app_nil_r in Q. apply Q.
      intros q Q'. apply (XB j); auto. }
    exists (W ++ T), (N.of_nat (b_pos (k_hl s))), (k_hl s), (puts W ws ++ T), (puts W ws), T, (Xs k), li, gs, hi.
    split; [reflexivity|]. split.
    { unfold set_last. rewrite DL. replace (N.of_nat (b_pos (k_hl s)) =? 0) with false by (symmetry; apply N.eqb_neq; lia).
      rewrite If. reflexivity. }
    split; [rewrite D; reflexivity|]. split; [reflexivity|]. split; [reflexivity|]. split; [exact C|].
    split; [cbv zeta; split; [exact A|rewrite B, Ipl; reflexivity]|].
    split; [eapply tail_in_frame; [exact TI|]; apply KF; exact K|].
    split; [exact LK|]. split; [exact SR|]. split; [exact OF|].
    intros j NJ J. split; [apply KF; exact J|]. intros q. apply Idis; auto.
  - destruct (IN K) as [L0 D0]. pose proof (In0 k K) as F. unfold st. rewrite F. cbn [option_map].
    assert (DL : d_link d = 0) by (unfold d, lk_of; rewrite F; exact L0). rewrite DL.
    assert (LF : length (c_file m) = (length W + length T)%nat) by (rewrite If, app_length; reflexivity).
    set (pd := repeat 0 (pad8 (length (c_file m)))).
    assert (LP : length pd = pad8 (length (c_file m))) by apply repeat_length.
    set (fa := align (c_file m)).
    assert (EA : fa = W ++ T ++ pd) by (unfold fa, align; rewrite If, <- app_assoc, <- If; reflexivity).
    set (l := N.of_nat (length fa)).
    destruct (one_patch i hk W b k d (set_link l) (fun '(p, _) => [(p + 24 + 8 * 2, le_bytes 8 l)]%nat) (p, cgs) Iw E1) as (A & B & C & D); auto.
    { apply patch_dg_link. }
    set (w1 := [(p + 24 + 8 * 2, le_bytes 8 l)]%nat) in *.
    set (hk1 := set_dgs hk (upd_nth k (set_link l) (h_dgs hk))) in *.
    assert (E2 : nth_error (h_dgs hk1) k = Some (set_link l d)).
    { unfold hk1. rewrite set_dgs_dgs, upd_nth_error, Nat.eqb_refl, E1. reflexivity. }
    destruct (one_patch i hk1 (puts W w1) b k (set_link l d) (count_dg e) (fun '(_, cgs) => dg_writes cgs (count_dg e (set_link l d))) (p, cgs) A E2) as (A2 & B2 & C2 & D2).
    { pose proof (patch_dg_counts (set_link l d) _ (SC l)) as P. cbv zeta in P. exact P. }
    { rewrite B. exact EP. }
    replace (dg_writes cgs (count_dg e (set_link l d))) with ws in * by reflexivity.
    set (W1 := puts (puts W w1) ws) in *.
    assert (LW : length W1 = length W) by lia.
    assert (EF : puts (put fa (p + 24 + 8 * 2) (le_bytes 8 l)) ws = W1 ++ T ++ pd).
    { change (put fa (p + 24 + 8 * 2) (le_bytes 8 l)) with (puts fa w1). rewrite EA, D, D2. reflexivity. }
    assert (L1 : length (W1 ++ T ++ pd) = length fa) by (rewrite EA, !app_length; lia).
    assert (LA : length fa = (length (c_file m) + pad8 (length (c_file m)))%nat) by (rewrite EA, !app_length; lia).
    destruct (write_hl_spec 0 0 (W1 ++ T ++ pd) ltac:(rewrite L1; lia) ltac:(reflexivity) ltac:(reflexivity))
      as (f2 & hl & EH & HA & P2 & L2 & A3).
    assert (PH : b_pos hl = length fa).
    { unfold write_hl in EH. rewrite write_block4_spec in EH by (rewrite L1; lia). apply ok_pair in EH. destruct EH as [_ <-].
      cbn [b_pos]. rewrite L1, LA, pad8_again. lia. }
    assert (EF2 : exists U, f2 = W1 ++ (T ++ pd) ++ U).
    { exists (skipn (length (W1 ++ T ++ pd)) f2). rewrite app_assoc, <- (firstn_skipn (length (W1 ++ T ++ pd)) f2) at 1. f_equal.
      destruct A3 as [A3 A4]. apply nth_error_ext_N; [rewrite firstn_length; lia|]. intros q Q. rewrite firstn_length in Q.
      rewrite nth_error_firstn' by lia. apply A4. lia. }
    destruct EF2 as [U EU].
    exists (put fa (p + 24 + 8 * 2) (le_bytes 8 l)), l, hl, f2, W1, ((T ++ pd) ++ U), (fun q => (b_pos hl <= q < b_pos hl + 40)%nat), 0, [], (b_pos hl + 40)%nat.
    split; [reflexivity|]. split; [unfold set_last; reflexivity|]. split; [rewrite EF; exact EH|].
    split; [unfold l; rewrite PH; reflexivity|]. split; [exact EU|]. split; [exact LW|]. split.
    { cbv zeta. split; [|rewrite Ipl, <- B, <- B2; unfold hk1; rewrite set_dgs_twice, set_dgs_dgs, upd_upd; reflexivity].
      unfold hk1 in A2. rewrite set_dgs_twice, set_dgs_dgs, upd_upd in A2. exact A2. }
    split.
    { constructor; [rewrite PH, LA; lia|exact HA|auto|split; reflexivity|lia|]. intros q Q. rewrite L2. lia. }
    split; [reflexivity|]. rewrite D0. split; [exact Logic.I|]. split; [reflexivity|].
    intros j NJ J. split.
    { rewrite EU, If, <- app_assoc. apply kept_front; [auto|]. intros q Q. apply (XB j); auto. }
    intros q Q1 Q2. apply (XB j q J) in Q1. rewrite <- If in Q1. lia.
Qed.

End Comp.
