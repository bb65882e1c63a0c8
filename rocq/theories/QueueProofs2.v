(** The drains as a whole: what is in the file after any schedule. *)
From Verif Require Import Base StreamModel StreamSpec IdProofs QueueModel QueueSpec QueueProofs
  EncProofs.
Local Open Scope N_scope.

(* ------------------------------------------------------------------ *)
(** ** Uncompressed *)

Lemma known_ok : forall d s, dg_ok d -> sample_ok d s -> is_known d s = true.
Proof.
  intros d s H ((g & Hin & E & _) & _). unfold is_known. rewrite (find_cg_sample d s g H Hin E). reflexivity.
Qed.

Definition u_emitted (d : dgroup) (has_sd : N -> bool) (st : ust) : Prop :=
  emitted d has_sd (u_log st) (u_out st) (u_enc st).

Lemma take_emitted : forall d has_sd c st, u_emitted d has_sd st -> u_emitted d has_sd (take d c st).
Proof.
  intros d has_sd c st H. unfold take. destruct (take_loop _ _ _ _ _) as [[q ph] gone]. exact H.
Qed.

Lemma accounted_ok : forall d all st, accounted all st -> Forall (sample_ok d) all ->
  forall s, u_phase st = Holding s -> sample_ok d s.
Proof.
  intros d all st (left & _ & E) F s P. rewrite Forall_forall in F. apply F. rewrite E, P.
  apply in_or_app; right. left; auto.
Qed.

Lemma work_emitted : forall d has_sd stale c st all, dg_ok d -> accounted all st ->
  Forall (sample_ok d) all -> u_emitted d has_sd st -> u_emitted d has_sd (work d has_sd stale c st).
Proof.
  intros d has_sd stale c st all H A F E. unfold work. destruct (u_phase st) as [|s] eqn:P.
  - apply take_emitted. exact E.
  - pose proof (accounted_ok d all st A F s P) as S.
    destruct (emitted_step d has_sd _ _ _ s H S E) as (b & e & M & E'). rewrite M.
    apply take_emitted. exact E'.
Qed.

Lemma run_emitted : forall sch d has_sd stale c st all, dg_ok d -> accounted all st ->
  Forall (sample_ok d) (all ++ saved sch) -> u_emitted d has_sd st ->
  u_emitted d has_sd (run d has_sd stale c sch st).
Proof.
  induction sch as [|a r IH]; intros d has_sd stale c st all H A F E; cbn [run]; auto.
  destruct a as [s|]; cbn [saved] in F.
  - apply (IH d has_sd stale c _ (all ++ [s])); auto.
    + apply save_accounted; auto.
    + rewrite <- app_assoc. exact F.
  - apply (IH d has_sd stale c _ all); auto.
    + apply work_accounted; auto.
    + apply (work_emitted d has_sd stale c st all); auto. apply Forall_app in F. tauto.
Qed.

Lemma works_saved : forall n, saved (works n) = [].
Proof. induction n; auto. Qed.

Lemma saved_app : forall a b, saved (a ++ b) = saved a ++ saved b.
Proof. induction a as [|x a IH]; intros; [reflexivity|]. destruct x; cbn [app saved]; rewrite IH; reflexivity. Qed.

(** An idle worker with an empty queue stays so. *)
Lemma idle_stays : forall n d has_sd stale c st, u_phase st = Idle -> q_list (u_q st) = [] ->
  u_phase (run d has_sd stale c (works n) st) = Idle /\
  q_list (u_q (run d has_sd stale c (works n) st)) = [].
Proof.
  induction n; intros d has_sd stale c st P Q; [auto|].
  change (works (S n)) with (Work :: works n). cbn [run].
  assert (T : q_list (cfg_trim stale c (u_q st)) = []).
  { pose proof (cfg_trim_split stale c (u_q st)) as X. rewrite Q in X at 3.
    apply app_eq_nil in X. tauto. }
  apply IHn; unfold work; rewrite P; unfold take; cbn [u_q]; rewrite T; cbn [length take_loop u_phase u_q]; auto.
Qed.

Lemma works_app : forall a b, works (a + b) = works a ++ works b.
Proof. intros. unfold works. apply repeat_app. Qed.

Lemma drain_all : forall d has_sd stale c st all n, accounted all st -> all_known d all ->
  c_stop c = 0 -> (S (length (q_list (u_q st))) <= n)%nat ->
  u_phase (run d has_sd stale c (works n) st) = Idle /\
  q_list (u_q (run d has_sd stale c (works n) st)) = [].
Proof.
  intros d has_sd stale c st all n A K HS L.
  destruct (drain_empties d has_sd stale c st all A K HS) as (m & M & P & Q).
  replace n with (m + (n - m))%nat by lia. rewrite works_app, run_app. apply idle_stays; auto.
Qed.

Lemma known_all : forall d l, dg_ok d -> Forall (sample_ok d) l -> all_known d l.
Proof. intros d l H F s Hs. rewrite Forall_forall in F. apply known_ok; auto. Qed.

Lemma run_ledger : forall d has_sd stale c sch, dg_ok d -> Forall (sample_ok d) (saved sch) ->
  c_stop c = 0 -> keeps_all c (saved sch) ->
  let st := run d has_sd stale c sch ust0 in
  saved sch = u_log st ++ held (u_phase st) ++ q_list (u_q st).
Proof.
  intros d has_sd stale c sch H F HS HT st.
  pose proof (run_accounted sch d has_sd stale c ust0 [] accounted0) as (left & SH & E).
  fold st in SH, E. cbn [app] in E.
  assert (G : u_gone st = []).
  { unfold st. rewrite (run_gone sch d has_sd stale c ust0 [] accounted0); auto.
    apply known_all; auto. }
  rewrite G in SH. apply shuffle_nil_r in SH. subst left. exact E.
Qed.

Lemma run_all : forall d has_sd stale c sch n, dg_ok d -> Forall (sample_ok d) (saved sch) ->
  c_stop c = 0 -> keeps_all c (saved sch) ->
  (S (length (q_list (u_q (run d has_sd stale c sch ust0)))) <= n)%nat ->
  let st := run d has_sd stale c (sch ++ works n) ust0 in
  q_list (u_q st) = [] /\ u_phase st = Idle /\ u_log st = saved sch /\
  emitted d has_sd (saved sch) (u_out st) (u_enc st).
Proof.
  intros d has_sd stale c sch n H F HS HT L st.
  assert (SV : saved (sch ++ works n) = saved sch) by (rewrite saved_app, works_saved, app_nil_r; auto).
  assert (D : u_phase st = Idle /\ q_list (u_q st) = []).
  { unfold st. rewrite run_app. apply (drain_all d has_sd stale c _ (saved sch)); auto.
    - apply (run_accounted sch d has_sd stale c ust0 [] accounted0).
    - apply known_all; auto. }
  destruct D as [P Q].
  assert (LG : u_log st = saved sch).
  { pose proof (run_ledger d has_sd stale c (sch ++ works n) H) as R. rewrite SV in R.
    specialize (R F HS HT). cbv zeta in R. fold st in R. rewrite P, Q in R. cbn [held app] in R.
    rewrite app_nil_r in R. auto. }
  split; [auto|]. split; [auto|]. split; [auto|]. rewrite <- LG. apply (run_emitted (sch ++ works n) d has_sd stale c ust0 []); auto.
  - apply accounted0.
  - cbn [app]. rewrite SV. auto.
  - apply emitted0.
Qed.

(* ------------------------------------------------------------------ *)
(** ** Compressed *)

Definition zheld (p : zphase) : list sample := match p with ZHolding s => [s] | _ => [] end.

Definition zdata (st : zst) : list N := concat (map snd (z_blocks st)) ++ z_buf st.

Record zok (d : dgroup) (has_sd : N -> bool) (all : list sample) (st : zst) : Prop := {
  zo_acc : exists left, shuffle (z_log st) (z_gone st) left /\
             all = left ++ zheld (z_phase st) ++ q_list (z_q st);
  zo_emit : emitted d has_sd (z_log st) (zdata st) (z_enc st);
  zo_buf : match z_phase st with ZHolding _ => True | _ => z_buf st = [] end;
  zo_off : z_off st = w64 (N.of_nat (length (concat (map snd (z_blocks st)))));
  zo_offs : offsets_right (z_blocks st)
}.

Lemma offsets_snoc : forall l o b, offsets_right l ->
  o = w64 (N.of_nat (length (concat (map snd l)))) -> offsets_right (l ++ [(o, b)]).
Proof.
  intros l o b H E pre o' b' post S.
  destruct post as [|x post _] using rev_ind.
  - change (pre ++ [(o', b')]) with (pre ++ [(o', b')]) in S.
    apply app_inj_tail in S as [<- S2]. injection S2 as <- <-. exact E.
  - rewrite app_comm_cons, app_assoc in S. apply app_inj_tail in S as [S _]. 
    apply (H pre o' b' post S).
Qed.

Lemma offsets_nil : offsets_right [].
Proof. intros pre o b post H. destruct pre; discriminate. Qed.

(** The state before the flush, with any phase and buffer. *)
Record zmid (d : dgroup) (has_sd : N -> bool) (st : zst) : Prop := {
  zm_emit : emitted d has_sd (z_log st) (zdata st) (z_enc st);
  zm_off : z_off st = w64 (N.of_nat (length (concat (map snd (z_blocks st)))));
  zm_offs : offsets_right (z_blocks st)
}.

Lemma flush_mid : forall d has_sd st, zmid d has_sd st -> zmid d has_sd (flush st).
Proof.
  intros d has_sd st [E O OS]. constructor; unfold flush; cbn [z_log z_enc z_off z_blocks z_buf].
  - unfold zdata in *. cbn [z_blocks z_buf]. rewrite map_app, concat_app. cbn [map concat snd].
    rewrite !app_nil_r. exact E.
  - rewrite map_app, concat_app, app_length. cbn [map concat snd]. rewrite app_nil_r.
    rewrite O. unfold w64. rewrite N.add_mod_idemp_l by lia. f_equal. lia.
  - apply offsets_snoc; auto.
Qed.

Lemma finish_ok : forall d has_sd all st left, zmid d has_sd st ->
  shuffle (z_log st) (z_gone st) left -> all = left ++ q_list (z_q st) ->
  zok d has_sd all (finish st).
Proof.
  intros d has_sd all st left M S E. unfold finish. cbv zeta. cbn [z_buf].
  set (st1 := mkZ (z_q st) ZIdle (z_fin st) (z_buf st) (z_blocks st) (z_off st) (z_enc st) (z_log st) (z_gone st)).
  assert (M1 : zmid d has_sd st1) by (destruct M; constructor; auto).
  destruct (z_buf st) as [|x b] eqn:B.
  - destruct M1. constructor; auto; [exists left; auto|reflexivity].
  - apply flush_mid in M1. destruct M1. constructor; auto.
    + exists left. auto.
    + reflexivity.
Qed.

Lemma ztake_ok : forall d has_sd all c st left, zmid d has_sd st ->
  shuffle (z_log st) (z_gone st) left -> all = left ++ q_list (z_q st) ->
  zok d has_sd all (ztake c st).
Proof.
  intros d has_sd all c st left M S E. unfold ztake, get_sample.
  destruct (q_list (z_q st)) as [|s r] eqn:Q.
  - apply (finish_ok d has_sd all st left); auto. rewrite Q. auto.
  - destruct ((0 <? c_stop c) && (c_stop c <? s_ts s)).
    + apply (finish_ok d has_sd all _ (left ++ [s])).
      * destruct M; constructor; auto.
      * cbn [z_log z_gone]. apply shuffle_r_app; auto.
      * cbn [z_q q_list]. rewrite <- app_assoc. exact E.
    + destruct M. constructor; auto; cbn [z_phase]; auto. exists left. auto.
Qed.

Lemma zwrite_ok : forall d has_sd all c s st left, dg_ok d -> sample_ok d s -> zmid d has_sd st ->
  shuffle (z_log st) (z_gone st) left -> all = left ++ s :: q_list (z_q st) ->
  zok d has_sd all (zwrite d has_sd c s st).
Proof.
  intros d has_sd all c s st left H S M SH E. unfold zwrite.
  destruct (emitted_step d has_sd _ _ _ s H S (zm_emit _ _ _ M)) as (b & e & M1 & E1). rewrite M1.
  apply (ztake_ok d has_sd all c _ (left ++ [s])).
  - constructor; cbn [z_log z_enc z_off z_blocks]; try apply M.
    unfold zdata in *. cbn [z_blocks z_buf]. rewrite app_assoc. exact E1.
  - cbn [z_log z_gone]. apply shuffle_l_app; auto.
  - cbn [z_q]. rewrite <- app_assoc. exact E.
Qed.

Lemma zok_mid : forall d has_sd all st, zok d has_sd all st -> zmid d has_sd st.
Proof. intros d has_sd all st []. constructor; auto. Qed.

Lemma ztrim_ok : forall d has_sd stale c all st, zheld (z_phase st) = [] -> zok d has_sd all st ->
  zok d has_sd all (ztrim stale c st).
Proof.
  intros d has_sd stale c all st P [(left & S & E) EM B O OS]. rewrite P in E. cbn [app] in E.
  constructor; auto. unfold ztrim. cbv zeta. cbn [z_log z_gone z_phase z_q]. rewrite P. cbn [app].
  eexists. split; [apply shuffle_r_app; exact S|]. rewrite <- app_assoc, cfg_trim_split. exact E.
Qed.

Lemma zopen_ok : forall d has_sd fin all st, z_phase st = ZIdle -> zok d has_sd all st ->
  zok d has_sd all (zopen fin st).
Proof.
  intros d has_sd fin all st P H. unfold zopen. destruct (q_list (z_q st)) eqn:Q; auto.
  destruct H as [(left & S & E) EM B O OS]. rewrite P in *. constructor; auto.
  - exists left. auto.
  - unfold zdata in *. cbn [z_blocks z_buf z_log z_enc]. rewrite B in EM. exact EM.
  - reflexivity.
Qed.

Lemma zwork_ok : forall d has_sd stale c fin all st, dg_ok d -> Forall (sample_ok d) all ->
  zok d has_sd all st -> zok d has_sd all (zwork d has_sd stale c fin st).
Proof.
  intros d has_sd stale c fin all st H F Z. unfold zwork. destruct (z_phase st) as [| |s] eqn:P.
  - destruct fin; [apply zopen_ok; auto|]. cbv zeta.
    pose proof (ztrim_ok d has_sd stale c all st ltac:(rewrite P; reflexivity) Z) as T.
    destruct (_ <? 2); auto. apply zopen_ok; auto.
  - pose proof (ztrim_ok d has_sd stale c all st ltac:(rewrite P; reflexivity) Z) as T.
    destruct (zo_acc _ _ _ _ T) as (left & S & E).
    apply (ztake_ok d has_sd all c _ left); auto.
    + eapply zok_mid; eauto.
    + unfold ztrim in E at 1. cbv zeta in E. cbn [z_phase] in E. rewrite P in E. exact E.
  - pose proof (zok_mid _ _ _ _ Z) as M. destruct (zo_acc _ _ _ _ Z) as (left & S & E).
    rewrite P in E. cbn [zheld app] in E.
    assert (SO : sample_ok d s).
    { rewrite Forall_forall in F. apply F. rewrite E. apply in_or_app. right. left. auto. }
    destruct (buffer_max <=? _).
    + destruct (z_fin st || _).
      * apply (zwrite_ok d has_sd all c s _ left); auto. apply flush_mid; auto.
      * apply (finish_ok d has_sd all _ left); auto. destruct M; constructor; auto.
    + apply (zwrite_ok d has_sd all c s _ left); auto.
Qed.

Lemma zsave_ok : forall d has_sd s all st, zok d has_sd all st -> zok d has_sd (all ++ [s]) (zsave s st).
Proof.
  intros d has_sd s all st [(left & S & E) EM B O OS]. constructor; auto.
  exists left. split; auto. cbn [zsave z_phase z_q add_sample q_list]. rewrite E, <- !app_assoc. reflexivity.
Qed.

Lemma zrun_ok : forall sch d has_sd stale c st all, dg_ok d -> Forall (sample_ok d) (all ++ zsaved sch) ->
  zok d has_sd all st -> zok d has_sd (all ++ zsaved sch) (zrun d has_sd stale c sch st).
Proof.
  induction sch as [|a r IH]; intros d has_sd stale c st all H F Z; cbn [zrun zsaved].
  - rewrite app_nil_r. auto.
  - destruct a as [s|fin]; cbn [zsaved] in *.
    + replace (all ++ s :: zsaved r) with ((all ++ [s]) ++ zsaved r) in * by (rewrite <- app_assoc; reflexivity).
      apply IH; auto. apply zsave_ok; auto.
    + apply IH; auto. apply zwork_ok; auto. apply Forall_app in F; tauto.
Qed.

Lemma zok0 : forall d has_sd, zok d has_sd [] zst0.
Proof.
  intros. constructor.
  - exists []. split; [constructor|reflexivity].
  - apply emitted0.
  - reflexivity.
  - reflexivity.
  - apply offsets_nil.
Qed.

(** ** No sample is dropped *)

Lemma flush_gone : forall st, z_gone (flush st) = z_gone st. Proof. reflexivity. Qed.
Lemma finish_gone : forall st, z_gone (finish st) = z_gone st.
Proof. intros. unfold finish. cbv zeta. cbn [z_buf]. destruct (z_buf st); reflexivity. Qed.

Lemma ztake_gone : forall c st, c_stop c = 0 -> z_gone (ztake c st) = z_gone st.
Proof.
  intros c st H. unfold ztake, get_sample. destruct (q_list (z_q st)); [apply finish_gone|].
  rewrite H. change (0 <? 0) with false. reflexivity.
Qed.

Lemma zwrite_gone : forall d has_sd c s st, c_stop c = 0 -> is_known d s = true ->
  z_gone (zwrite d has_sd c s st) = z_gone st.
Proof.
  intros d has_sd c s st H K. unfold zwrite. destruct (emit_known d has_sd (z_enc st) s K) as [[b e] ->].
  rewrite ztake_gone by auto. reflexivity.
Qed.

Lemma ztrim_gone : forall stale c st, keeps_all c (q_list (z_q st)) -> z_gone (ztrim stale c st) = z_gone st.
Proof.
  intros. unfold ztrim. cbv zeta. cbn [z_gone]. rewrite cfg_trim_id, Nat.sub_diag, firstn_O, app_nil_r by auto.
  reflexivity.
Qed.

Lemma zopen_gone : forall fin st, z_gone (zopen fin st) = z_gone st.
Proof. intros. unfold zopen. destruct (q_list (z_q st)); reflexivity. Qed.

Lemma zwork_gone : forall d has_sd stale c fin st, c_stop c = 0 -> keeps_all c (q_list (z_q st)) ->
  (forall s, z_phase st = ZHolding s -> is_known d s = true) ->
  z_gone (zwork d has_sd stale c fin st) = z_gone st.
Proof.
  intros d has_sd stale c fin st H T K. unfold zwork. destruct (z_phase st) as [| |s].
  - destruct fin; [apply zopen_gone|]. cbv zeta. destruct (_ <? 2); [|rewrite zopen_gone]; apply ztrim_gone; auto.
  - rewrite ztake_gone, ztrim_gone; auto.
  - destruct (buffer_max <=? _).
    + destruct (z_fin st || _).
      * rewrite zwrite_gone; auto.
      * rewrite finish_gone. reflexivity.
    + rewrite zwrite_gone; auto.
Qed.

Lemma zrun_gone : forall sch d has_sd stale c st all, dg_ok d -> Forall (sample_ok d) (all ++ zsaved sch) ->
  zok d has_sd all st -> c_stop c = 0 -> keeps_all c (all ++ zsaved sch) ->
  z_gone (zrun d has_sd stale c sch st) = z_gone st.
Proof.
  induction sch as [|a r IH]; intros d has_sd stale c st all H F Z HS HT; cbn [zrun]; auto.
  destruct a as [s|fin]; cbn [zsaved] in F, HT.
  - rewrite (IH d has_sd stale c _ (all ++ [s])); auto.
    + rewrite <- app_assoc. exact F.
    + apply zsave_ok; auto.
    + rewrite <- app_assoc. exact HT.
  - assert (FA : Forall (sample_ok d) all) by (apply Forall_app in F; tauto).
    rewrite (IH d has_sd stale c _ all); auto.
    + destruct (zo_acc _ _ _ _ Z) as (left & _ & E). apply zwork_gone; auto.
      { apply (keeps_sub c _ _ HT). intros x Hx. rewrite E. apply in_or_app; left.
        apply in_or_app; right. apply in_or_app; right; auto. }
      intros s P. rewrite P in E. apply known_ok; auto. rewrite Forall_forall in FA. apply FA. rewrite E.
      apply in_or_app. right. left. auto.
    + apply zwork_ok; auto.
Qed.

(** ** The drain ends *)

Definition zworks (n : nat) : list zact := repeat (ZWork true) n.

Definition zmeasure (st : zst) : nat :=
  let l := length (q_list (z_q st)) in
  match z_phase st, z_fin st with
  | ZIdle, _ => match l with O => 0 | _ => l + 2 end
  | ZOpened, true => l + 1
  | ZOpened, false => l + 4
  | ZHolding _, true => l + 1
  | ZHolding _, false => l + 4
  end%nat.

Lemma finish_fields : forall st, z_phase (finish st) = ZIdle /\ q_list (z_q (finish st)) = q_list (z_q st).
Proof. intros. unfold finish. cbv zeta. cbn [z_buf]. destruct (z_buf st); auto. Qed.

Lemma ztake_measure : forall c st, c_stop c = 0 ->
  let st' := ztake c st in
  (q_list (z_q st) = [] /\ z_phase st' = ZIdle /\ q_list (z_q st') = []) \/
  (exists s r, q_list (z_q st) = s :: r /\ z_phase st' = ZHolding s /\ q_list (z_q st') = r /\
     z_fin st' = z_fin st).
Proof.
  intros c st H. cbv zeta. unfold ztake, get_sample. destruct (q_list (z_q st)) as [|s r] eqn:Q.
  - left. destruct (finish_fields st) as [-> ->]. auto.
  - right. exists s, r. rewrite H. change (0 <? 0) with false. cbn [andb]. auto.
Qed.

Lemma zwrite_measure : forall d has_sd c s st, c_stop c = 0 ->
  (zmeasure (zwrite d has_sd c s st) <
   match z_fin st with true => S (length (q_list (z_q st))) | false => 4 + length (q_list (z_q st)) end)%nat.
Proof.
  intros d has_sd c s st H. unfold zwrite.
  assert (G : forall st1, q_list (z_q st1) = q_list (z_q st) -> z_fin st1 = z_fin st ->
    (zmeasure (ztake c st1) <
     match z_fin st with true => S (length (q_list (z_q st))) | false => 4 + length (q_list (z_q st)) end)%nat).
  { intros st1 E1 E2. destruct (ztake_measure c st1 H) as [(A & B & C)|(x & r & A & B & C & D)];
    unfold zmeasure; rewrite B, C.
    - cbn [length]. destruct (z_fin st); lia.
    - rewrite D, E2. rewrite <- E1, A. cbn [length]. destruct (z_fin st); lia. }
  destruct (emit4 d has_sd (z_enc st) s) as [[b e]|]; apply G; reflexivity.
Qed.

Lemma zwork_measure : forall d has_sd stale c st, c_stop c = 0 -> zmeasure st <> 0%nat ->
  (zmeasure (zwork d has_sd stale c true st) < zmeasure st)%nat.
Proof.
  intros d has_sd stale c st H N0. unfold zwork.
  destruct (z_phase st) as [| |s] eqn:P.
  - unfold zopen. destruct (q_list (z_q st)) as [|x r] eqn:Q.
    + exfalso. apply N0. unfold zmeasure. rewrite P, Q. reflexivity.
    + unfold zmeasure. rewrite P. cbn [z_q z_phase z_fin]. rewrite Q. cbn [length]. lia.
  - set (t := ztrim stale c st).
    assert (LT : (length (q_list (z_q t)) <= length (q_list (z_q st)))%nat).
    { unfold t, ztrim. cbv zeta. cbn [z_q].
      pose proof (f_equal (@length sample) (cfg_trim_split stale c (z_q st))) as X.
      rewrite app_length in X. lia. }
    assert (FT : z_fin t = z_fin st) by reflexivity.
    unfold zmeasure at 2. rewrite P.
    destruct (ztake_measure c t H) as [(A & B & C)|(x & r & A & B & C & D)];
      unfold zmeasure; rewrite B, C.
    + cbn [length]. destruct (z_fin st); lia.
    + rewrite D, FT. rewrite A in LT. cbn [length] in LT. destruct (z_fin st); lia.
  - unfold zmeasure at 2. rewrite P.
    destruct (buffer_max <=? _).
    + destruct (z_fin st) eqn:Z; cbn [orb].
      * pose proof (zwrite_measure d has_sd c s (flush st) H) as W.
        change (z_fin (flush st)) with (z_fin st) in W. rewrite Z in W.
        change (q_list (z_q (flush st))) with (q_list (z_q st)) in W. lia.
      * destruct (buffer_max <? _).
        -- pose proof (zwrite_measure d has_sd c s (flush st) H) as W.
           change (z_fin (flush st)) with (z_fin st) in W. rewrite Z in W.
           change (q_list (z_q (flush st))) with (q_list (z_q st)) in W. lia.
        -- unfold zmeasure. 
           destruct (finish_fields (mkZ (push_sample (z_q st) s) ZIdle false (z_buf st) (z_blocks st)
                       (z_off st) (z_enc st) (z_log st) (z_gone st))) as [-> ->].
           cbn [z_q push_sample q_list length]. lia.
    + pose proof (zwrite_measure d has_sd c s st H) as W. destruct (z_fin st); lia.
Qed.

Lemma zidle_stays : forall n d has_sd stale c st, z_phase st = ZIdle -> q_list (z_q st) = [] ->
  zrun d has_sd stale c (zworks n) st = st.
Proof.
  induction n; intros; [reflexivity|]. change (zworks (S n)) with (ZWork true :: zworks n). cbn [zrun].
  assert (E : zwork d has_sd stale c true st = st) by (unfold zwork, zopen; rewrite H, H0; reflexivity).
  rewrite E. apply IHn; auto.
Qed.

Lemma zmeasure0 : forall st, zmeasure st = 0%nat -> z_phase st = ZIdle /\ q_list (z_q st) = [].
Proof.
  intros st H. unfold zmeasure in H. destruct (z_phase st), (z_fin st); try lia;
  destruct (q_list (z_q st)); cbn [length] in H; auto; lia.
Qed.

Lemma zdrain : forall n d has_sd stale c st, c_stop c = 0 -> (zmeasure st <= n)%nat ->
  z_phase (zrun d has_sd stale c (zworks n) st) = ZIdle /\
  q_list (z_q (zrun d has_sd stale c (zworks n) st)) = [].
Proof.
  induction n; intros d has_sd stale c st H L.
  - apply zmeasure0. cbn. lia.
  - destruct (Nat.eq_dec (zmeasure st) 0) as [Z|Z].
    + destruct (zmeasure0 st Z). rewrite zidle_stays; auto.
    + change (zworks (S n)) with (ZWork true :: zworks n). cbn [zrun]. apply IHn; auto.
      pose proof (zwork_measure d has_sd stale c st H Z). lia.
Qed.

Lemma zrun_app : forall a b d has_sd stale c st,
  zrun d has_sd stale c (a ++ b) st = zrun d has_sd stale c b (zrun d has_sd stale c a st).
Proof. induction a as [|x a IH]; intros; [reflexivity|]. destruct x; cbn [app zrun]; apply IH. Qed.

Lemma zsaved_app : forall a b, zsaved (a ++ b) = zsaved a ++ zsaved b.
Proof. induction a as [|x a IH]; intros; [reflexivity|]. destruct x; cbn [app zsaved]; rewrite IH; reflexivity. Qed.

Lemma zworks_saved : forall n, zsaved (zworks n) = [].
Proof. induction n; auto. Qed.

Lemma zrun_ledger : forall d has_sd stale c sch, dg_ok d -> Forall (sample_ok d) (zsaved sch) ->
  c_stop c = 0 -> keeps_all c (zsaved sch) ->
  let st := zrun d has_sd stale c sch zst0 in
  zsaved sch = z_log st ++ zheld (z_phase st) ++ q_list (z_q st) /\
  emitted d has_sd (z_log st) (zdata st) (z_enc st) /\ offsets_right (z_blocks st).
Proof.
  intros d has_sd stale c sch H F HS HT st.
  pose proof (zrun_ok sch d has_sd stale c zst0 [] H F (zok0 d has_sd)) as Z. fold st in Z.
  destruct Z as [(left & S & E) EM _ _ OS]. cbn [app] in E.
  assert (G : z_gone st = []).
  { unfold st. rewrite (zrun_gone sch d has_sd stale c zst0 []); auto. apply zok0. }
  rewrite G in S. apply shuffle_nil_r in S. subst left. auto.
Qed.

Lemma zrun_all : forall d has_sd stale c sch n, dg_ok d -> Forall (sample_ok d) (zsaved sch) ->
  c_stop c = 0 -> keeps_all c (zsaved sch) ->
  (length (q_list (z_q (zrun d has_sd stale c sch zst0))) + 4 <= n)%nat ->
  let st := zrun d has_sd stale c (sch ++ zworks n) zst0 in
  q_list (z_q st) = [] /\ z_phase st = ZIdle /\ z_buf st = [] /\ z_log st = zsaved sch /\
  emitted d has_sd (zsaved sch) (concat (map snd (z_blocks st))) (z_enc st) /\
  offsets_right (z_blocks st).
Proof.
  intros d has_sd stale c sch n H F HS HT L st.
  assert (SV : zsaved (sch ++ zworks n) = zsaved sch) by (rewrite zsaved_app, zworks_saved, app_nil_r; auto).
  assert (D : z_phase st = ZIdle /\ q_list (z_q st) = []).
  { unfold st. rewrite zrun_app. apply zdrain; auto. 
    set (m := zrun d has_sd stale c sch zst0) in *. clearbody m. unfold zmeasure.
    destruct (z_phase m), (z_fin m); try lia; destruct (length (q_list (z_q m))); lia. }
  destruct D as [P Q].
  pose proof (zrun_ok (sch ++ zworks n) d has_sd stale c zst0 [] H ltac:(rewrite SV; auto) (zok0 d has_sd)) as Z.
  fold st in Z. pose proof (zo_buf _ _ _ _ Z) as B. rewrite P in B.
  pose proof (zrun_ledger d has_sd stale c (sch ++ zworks n) H) as R. rewrite SV in R.
  specialize (R F HS HT). cbv zeta in R. fold st in R. destruct R as (R1 & R2 & R3).
  rewrite P, Q in R1. cbn [zheld app] in R1. rewrite app_nil_r in R1.
  rewrite <- R1 in R2. unfold zdata in R2. rewrite B, app_nil_r in R2. auto 8.
Qed.

(** ** Blocks are not empty when no sample alone fills a block *)

Definition fits (d : dgroup) (s : sample) : Prop := max_index (d_idsize d) [] s < buffer_max.

Definition zfull (d : dgroup) (st : zst) : Prop :=
  Forall (fun b => snd b <> []) (z_blocks st) /\ Forall (fits d) (q_list (z_q st)) /\
  Forall (fits d) (zheld (z_phase st)).

Lemma flush_full : forall d st, z_buf st <> [] -> zfull d st -> zfull d (flush st).
Proof.
  intros d st B (F1 & F2 & F3). split; [|auto]. unfold flush. cbn [z_blocks].
  apply Forall_app. split; auto.
Qed.

Lemma finish_full : forall d st, Forall (fun b => snd b <> []) (z_blocks st) ->
  Forall (fits d) (q_list (z_q st)) -> zfull d (finish st).
Proof.
  intros d st F1 F2. unfold finish. cbv zeta. cbn [z_buf]. destruct (z_buf st) eqn:B.
  - repeat split; auto. constructor.
  - apply flush_full; [discriminate|]. repeat split; auto. constructor.
Qed.

Lemma ztake_full : forall d c st, Forall (fun b => snd b <> []) (z_blocks st) ->
  Forall (fits d) (q_list (z_q st)) -> zfull d (ztake c st).
Proof.
  intros d c st F1 F2. unfold ztake, get_sample. destruct (q_list (z_q st)) as [|s r] eqn:Q.
  - apply finish_full; auto. rewrite Q. auto.
  - apply Forall_cons_iff in F2 as [F2 F3]. destruct (_ && _).
    + apply finish_full; auto.
    + repeat split; auto. cbn. auto.
Qed.

Lemma zwrite_full : forall d has_sd c s st, Forall (fun b => snd b <> []) (z_blocks st) ->
  Forall (fits d) (q_list (z_q st)) -> zfull d (zwrite d has_sd c s st).
Proof.
  intros d has_sd c s st F1 F2. unfold zwrite. destruct (emit4 d has_sd (z_enc st) s) as [[b e]|];
  apply ztake_full; auto.
Qed.

Lemma ztrim_full : forall d stale c st, zfull d st -> zfull d (ztrim stale c st).
Proof.
  intros d stale c st (F1 & F2 & F3). repeat split; auto. unfold ztrim. cbv zeta. cbn [z_q].
  rewrite <- (cfg_trim_split stale c (z_q st)) in F2. apply Forall_app in F2. tauto.
Qed.

Lemma zopen_full : forall d fin st, zfull d st -> zfull d (zopen fin st).
Proof.
  intros d fin st (F1 & F2 & F3). unfold zopen. destruct (q_list (z_q st)) eqn:Q.
  - split; [exact F1|]. split; [rewrite Q; constructor|exact F3].
  - split; [exact F1|]. split; [cbn [z_q]; rewrite Q; exact F2|constructor].
Qed.

Lemma zwork_full : forall d has_sd stale c fin st, zfull d st -> zfull d (zwork d has_sd stale c fin st).
Proof.
  intros d has_sd stale c fin st Z. unfold zwork. destruct (z_phase st) as [| |s] eqn:P.
  - destruct fin; [apply zopen_full; auto|]. cbv zeta. destruct (_ <? 2); [|apply zopen_full]; apply ztrim_full; auto.
  - destruct (ztrim_full d stale c st Z) as (F1 & F2 & _). apply ztake_full; auto.
  - destruct Z as (F1 & F2 & F3). rewrite P in F3. apply Forall_cons_iff in F3 as [F3 _].
    destruct (N.leb_spec buffer_max (max_index (d_idsize d) (z_buf st) s)) as [Q|Q].
    + assert (B : z_buf st <> []).
      { intros B. rewrite B in Q. unfold fits in F3. lia. }
      destruct (z_fin st || _).
      * apply zwrite_full; auto. unfold flush. cbn [z_blocks]. apply Forall_app. auto.
      * apply finish_full; auto. cbn [z_q push_sample q_list]. constructor; auto.
    + apply zwrite_full; auto.
Qed.

Lemma zrun_full : forall sch d has_sd stale c st, zfull d st -> Forall (fits d) (zsaved sch) ->
  zfull d (zrun d has_sd stale c sch st).
Proof.
  induction sch as [|a r IH]; intros d has_sd stale c st Z F; cbn [zrun]; auto.
  destruct a as [s|fin]; cbn [zsaved] in F.
  - apply Forall_cons_iff in F as [F0 F]. apply IH; auto. destruct Z as (F1 & F2 & F3).
    repeat split; auto. cbn [zsave z_q add_sample q_list]. apply Forall_app. auto.
  - apply IH; auto. apply zwork_full; auto.
Qed.

(** ** Size counter *)

Lemma ztake_size : forall c st, size_right (z_q st) -> size_right (z_q (ztake c st)).
Proof.
  intros c st H. unfold ztake. destruct (get_sample (z_q st)) as [[s q]|] eqn:G.
  - pose proof (size_get _ _ _ H G). destruct (_ && _); auto.
    unfold finish. cbv zeta. cbn [z_buf]. destruct (z_buf st); auto.
  - unfold finish. cbv zeta. cbn [z_buf]. destruct (z_buf st); auto.
Qed.

Lemma zwrite_size : forall d has_sd c s st, size_right (z_q st) -> size_right (z_q (zwrite d has_sd c s st)).
Proof.
  intros. unfold zwrite. destruct (emit4 _ _ _ _) as [[b e]|]; apply ztake_size; auto.
Qed.

Lemma zopen_q : forall fin st, z_q (zopen fin st) = z_q st.
Proof. intros. unfold zopen. destruct (q_list (z_q st)); reflexivity. Qed.

Lemma zwork_size : forall d has_sd c fin st, size_right (z_q st) ->
  size_right (z_q (zwork d has_sd sample_size c fin st)).
Proof.
  intros d has_sd c fin st H. unfold zwork. destruct (z_phase st) as [| |s].
  - destruct fin; [rewrite zopen_q; auto|]. cbv zeta. destruct (_ <? 2); [|rewrite zopen_q]; apply size_trim; auto.
  - apply ztake_size. apply size_trim; auto.
  - destruct (_ <=? _).
    + destruct (z_fin st || _); [apply zwrite_size; auto|].
      unfold finish. cbv zeta. cbn [z_buf]. destruct (z_buf st); apply size_push; auto.
    + apply zwrite_size; auto.
Qed.

Lemma zrun_size : forall sch d has_sd c st, size_right (z_q st) ->
  size_right (z_q (zrun d has_sd sample_size c sch st)).
Proof.
  induction sch as [|a r IH]; intros d has_sd c st H; cbn [zrun]; auto.
  destruct a as [s|fin]; apply IH; [apply size_add; auto|apply zwork_size; auto].
Qed.
