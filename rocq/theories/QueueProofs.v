(** Proofs about the queue and the drains: accounting, size, trimming. *)
From Verif Require Import Base StreamModel StreamSpec QueueModel QueueSpec.
Local Open Scope N_scope.

(* ------------------------------------------------------------------ *)
(** ** Interleavings *)

Lemma shuffle_l_app : forall A (a b c x : list A), shuffle a b c -> shuffle (a ++ x) b (c ++ x).
Proof.
  intros A a b c x H. induction H; cbn [app]; try (constructor; auto).
  induction x; constructor; auto.
Qed.

Lemma shuffle_r_app : forall A (a b c x : list A), shuffle a b c -> shuffle a (b ++ x) (c ++ x).
Proof.
  intros A a b c x H. induction H; cbn [app]; try (constructor; auto).
  induction x; constructor; auto.
Qed.

Lemma shuffle_nil_r : forall A (a c : list A), shuffle a [] c -> a = c.
Proof.
  intros A a c H. remember [] as b eqn:E. induction H; auto; try discriminate.
  f_equal; auto.
Qed.

Lemma shuffle_in : forall A (a b c : list A) x, shuffle a b c -> In x c -> In x a \/ In x b.
Proof.
  intros A a b c x H. induction H; intros Hi; [destruct Hi| |].
  - destruct Hi as [->|Hi]; [left; left; auto|]. destruct (IHshuffle Hi); [left; right|right]; auto.
  - destruct Hi as [->|Hi]; [right; left; auto|]. destruct (IHshuffle Hi); [left|right; right]; auto.
Qed.

Lemma shuffle_length : forall A (a b c : list A), shuffle a b c -> length c = (length a + length b)%nat.
Proof. intros A a b c H. induction H; cbn [length]; lia. Qed.

(* ------------------------------------------------------------------ *)
(** ** Trimming *)

Lemma trim_list_suffix : forall start pre l, exists k,
  l = k ++ trim_list start pre l.
Proof.
  induction l as [|a r IH]; [exists []; reflexivity|].
  destruct r as [|b r]; [exists []; reflexivity|].
  change (trim_list start pre (a :: b :: r)) with
    (if trim_done start pre (s_ts b) (s_ts (last (b :: r) b)) then a :: b :: r
     else trim_list start pre (b :: r)).
  destruct (trim_done _ _ _ _); [exists []; reflexivity|].
  destruct IH as [k E]. exists (a :: k). cbn [app]. f_equal. exact E.
Qed.

Lemma trim_list_nonempty : forall start pre l, l <> [] -> trim_list start pre l <> [].
Proof.
  induction l as [|a r IH]; intros H; [congruence|].
  destruct r as [|b r]; [cbn; congruence|].
  change (trim_list start pre (a :: b :: r)) with
    (if trim_done start pre (s_ts b) (s_ts (last (b :: r) b)) then a :: b :: r
     else trim_list start pre (b :: r)).
  destruct (trim_done _ _ _ _); [congruence|]. apply IH. congruence.
Qed.

Lemma pop_n_list : forall stale n q, q_list (pop_n stale n q) = skipn n (q_list q).
Proof.
  induction n; intros q; [reflexivity|]. cbn [pop_n]. rewrite IHn. unfold pop_sample.
  destruct (q_list q) eqn:E; cbn [q_list skipn].
  - rewrite E. destruct n; reflexivity.
  - reflexivity.
Qed.

Lemma trim_queue_list : forall stale start pre q,
  q_list (trim_queue stale start pre q) = trim_list start pre (q_list q).
Proof.
  intros. unfold trim_queue. rewrite pop_n_list.
  destruct (trim_list_suffix start pre (q_list q)) as [k E].
  rewrite E at 1 3. rewrite app_length.
  replace (length k + length (trim_list start pre (q_list q)) - length (trim_list start pre (q_list q)))%nat
    with (length k) by lia.
  rewrite skipn_app, Nat.sub_diag, skipn_all. reflexivity.
Qed.

(** The samples TrimQueue removes, as the model logs them, followed by the ones kept. *)
Lemma cfg_trim_split : forall stale c q,
  firstn (length (q_list q) - length (q_list (cfg_trim stale c q))) (q_list q)
  ++ q_list (cfg_trim stale c q) = q_list q.
Proof.
  intros stale c q. unfold cfg_trim. destruct (c_trim c).
  - rewrite trim_queue_list.
    destruct (trim_list_suffix (c_start c) (c_pre c) (q_list q)) as [k E].
    set (t := trim_list _ _ _) in *. rewrite E, app_length.
    replace (length k + length t - length t)%nat with (length k) by lia.
    rewrite firstn_app, Nat.sub_diag, firstn_O, firstn_all, app_nil_r. reflexivity.
  - rewrite Nat.sub_diag. reflexivity.
Qed.

(** With ordered time stamps, after the start: everything in the window is kept, and at most one
    older sample. *)
Lemma sorted_tail : forall a l, sorted_ts (a :: l) -> sorted_ts l.
Proof. intros a [|b l] H; [exact I|]. destruct H; auto. Qed.

Lemma sorted_head : forall l a x, sorted_ts (a :: l) -> In x l -> s_ts a <= s_ts x.
Proof.
  induction l as [|b l IH]; intros a x H Hi; [destruct Hi|].
  destruct H as [H1 H2]. destruct Hi as [<-|Hi]; auto. specialize (IH b x H2 Hi). lia.
Qed.

Lemma sub64_le : forall a b, b <= a -> a < 2 ^ 64 -> sub64 a b = a - b.
Proof.
  intros a b H L. unfold sub64, w64. rewrite (N.mod_small b) by lia.
  replace (a + (2 ^ 64 - b)) with ((a - b) + 1 * 2 ^ 64) by lia.
  rewrite N.mod_add by lia. apply N.mod_small. lia.
Qed.

Lemma trim_started : forall start pre l, 0 < start -> pre <= start -> start < 2 ^ 64 ->
  sorted_ts l ->
  exists dropped, l = dropped ++ trim_list start pre l /\
    (forall s, In s dropped -> s_ts s < start - pre) /\
    (forall s, In s (tl (trim_list start pre l)) -> start - pre <= s_ts s).
Proof.
  intros start pre l H0 H1 H2. induction l as [|a r IH]; intros S.
  - exists []. repeat split; auto; intros s [].
  - destruct r as [|b r].
    + exists []. repeat split; auto; intros s [].
    + change (trim_list start pre (a :: b :: r)) with
        (if trim_done start pre (s_ts b) (s_ts (last (b :: r) b)) then a :: b :: r
         else trim_list start pre (b :: r)).
      unfold trim_done. replace (0 <? start) with true by lia. rewrite sub64_le by auto.
      destruct S as [S1 S2].
      destruct (N.leb_spec (start - pre) (s_ts b)) as [Q|Q].
      * exists []. repeat split; auto; [intros s []|]. cbn [tl]. intros s [<-|Hi]; auto.
        pose proof (sorted_head r b s S2 Hi). lia.
      * destruct (IH S2) as (k & E & K1 & K2). exists (a :: k). repeat split; auto.
        -- cbn [app]. f_equal. exact E.
        -- intros s [<-|Hi]; auto. lia.
Qed.

Lemma last_in : forall (l : list sample) b, In (last l b) (b :: l).
Proof.
  induction l as [|a l IH]; intros b; [left; reflexivity|].
  destruct l as [|c l]; [right; left; reflexivity|].
  change (last (a :: c :: l) b) with (last (c :: l) b).
  destruct (IH b) as [H|H]; [left; auto|right; right; auto].
Qed.

Lemma last_default : forall (l : list sample) a b, l <> [] -> last l a = last l b.
Proof.
  induction l as [|x l IH]; intros a b H; [congruence|].
  destruct l; [reflexivity|]. apply (IH a b). congruence.
Qed.

Lemma trim_waiting : forall pre l x, sorted_ts l -> (forall s, In s l -> s_ts s < 2 ^ 64) ->
  exists dropped, l = dropped ++ trim_list 0 pre l /\
    (forall s, In s dropped -> s_ts s + pre < s_ts (last l x)) /\
    (forall s, In s (tl (trim_list 0 pre l)) -> s_ts (last l x) <= s_ts s + pre).
Proof.
  intros pre l x. induction l as [|a r IH]; intros S B.
  - exists []. repeat split; auto; intros s [].
  - destruct r as [|b r].
    + exists []. repeat split; auto; intros s [].
    + change (trim_list 0 pre (a :: b :: r)) with
        (if trim_done 0 pre (s_ts b) (s_ts (last (b :: r) b)) then a :: b :: r
         else trim_list 0 pre (b :: r)).
      destruct S as [S1 S2].
      change (last (a :: b :: r) x) with (last (b :: r) x).
      rewrite (last_default (b :: r) b x) by congruence.
      assert (LB : s_ts b <= s_ts (last (b :: r) x)).
      { rewrite (last_default (b :: r) x b) by congruence.
        pose proof (last_in r b) as [E|E].
        - destruct r as [|c r]; [cbn; lia|]. 
          change (last (b :: c :: r) b) with (last (c :: r) b). rewrite <- E. lia.
        - apply N.le_trans with (s_ts (last r b)); [apply (sorted_head r b); auto|].
          destruct r; [destruct E|]. change (last (b :: s :: r) b) with (last (s :: r) b). lia. }
      assert (LL : s_ts (last (b :: r) x) < 2 ^ 64).
      { apply B. right. pose proof (last_in (b :: r) b) as [E|E];
        rewrite (last_default (b :: r) x b) by congruence; [rewrite <- E; left; auto|auto]. }
      unfold trim_done. change (0 <? 0) with false. cbv iota. rewrite sub64_le by auto.
      destruct (N.leb_spec (s_ts (last (b :: r) x) - s_ts b) pre) as [Q|Q].
      * exists []. repeat split; auto; [intros s []|]. cbn [tl]. intros s [<-|Hi]; [lia|].
        pose proof (sorted_head r b s S2 Hi). lia.
      * destruct (IH S2) as (k & E & K1 & K2); [intros; apply B; right; auto|].
        exists (a :: k). repeat split; auto.
        -- cbn [app]. f_equal. exact E.
        -- intros s [<-|Hi]; auto. lia.
Qed.

Lemma keeps_sub : forall c a b, keeps_all c a -> (forall s, In s b -> In s a) -> keeps_all c b.
Proof. intros c a b [H|(H1 & H2 & H3 & H4)] HI; [left|right]; auto 8. Qed.

Lemma cfg_trim_id : forall stale c q, keeps_all c (q_list q) -> cfg_trim stale c q = q.
Proof.
  intros stale c q [H|(H1 & H2 & H3 & H4)]; unfold cfg_trim.
  - rewrite H. reflexivity.
  - destruct (c_trim c); [|reflexivity]. unfold trim_queue.
    assert (E : trim_list (c_start c) (c_pre c) (q_list q) = q_list q).
    { destruct (q_list q) as [|a [|b r]]; try reflexivity. cbn [trim_list]. unfold trim_done.
      replace (0 <? c_start c) with true by lia. rewrite sub64_le by auto.
      replace (c_start c - c_pre c <=? s_ts b) with true; [reflexivity|].
      symmetry. apply N.leb_le. apply H4. right; left; auto. }
    rewrite E, Nat.sub_diag. reflexivity.
Qed.

(* ------------------------------------------------------------------ *)
(** ** The size counter *)

Definition size_right (q : queue) : Prop := q_size q = w64 (total_size (q_list q)).

Lemma w64_lt : forall x, w64 x < 2 ^ 64.
Proof. intros. apply N.mod_lt. lia. Qed.

Lemma w64_add : forall a b, w64 (w64 a + b) = w64 (a + b).
Proof. intros. unfold w64. apply N.add_mod_idemp_l. lia. Qed.

Lemma sub64_add : forall a b, sub64 (w64 (a + b)) a = w64 b.
Proof.
  intros a b. unfold sub64, w64. rewrite N.add_mod_idemp_l by lia.
  set (m := 2 ^ 64). assert (Hm : m <> 0) by (unfold m; lia). clearbody m.
  pose proof (N.mod_lt a m Hm) as L. rewrite (N.div_mod a m) at 1 by auto.
  replace (m * (a / m) + a mod m + b + (m - a mod m)) with (b + (a / m + 1) * m) by nia.
  apply N.mod_add; auto.
Qed.

Lemma total_app : forall a b, total_size (a ++ b) = total_size a + total_size b.
Proof. induction a; intros; cbn; [reflexivity|]. fold (total_size (a0 ++ b)). rewrite IHa. cbn. fold (total_size a0). lia. Qed.

Lemma size_add : forall q s, size_right q -> size_right (add_sample q s).
Proof.
  intros q s H. unfold size_right, add_sample in *. cbn [q_size q_list]. rewrite H, w64_add, total_app.
  f_equal. cbn. lia.
Qed.

Lemma size_push : forall q s, size_right q -> size_right (push_sample q s).
Proof.
  intros q s H. unfold size_right, push_sample in *. cbn [q_size q_list]. rewrite H, w64_add.
  f_equal. cbn. fold (total_size (q_list q)). lia.
Qed.

Lemma size_get : forall q s q', size_right q -> get_sample q = Some (s, q') -> size_right q'.
Proof.
  intros q s q' H G. unfold get_sample in G. destruct (q_list q) as [|x r] eqn:E; [discriminate|].
  injection G as <- <-. unfold size_right in *. cbn [q_size q_list]. rewrite H, E.
  change (total_size (x :: r)) with (sample_size x + total_size r). apply sub64_add.
Qed.

Lemma size_pop_n : forall n q, size_right q -> size_right (pop_n sample_size n q).
Proof.
  induction n; intros q H; [exact H|]. cbn [pop_n]. apply IHn. unfold pop_sample.
  destruct (q_list q) as [|x r] eqn:E; [exact H|]. unfold size_right in *. cbn [q_size q_list].
  rewrite H, E. change (total_size (x :: r)) with (sample_size x + total_size r). apply sub64_add.
Qed.

Lemma size_trim : forall c q, size_right q -> size_right (cfg_trim sample_size c q).
Proof. intros c q H. unfold cfg_trim. destruct (c_trim c); auto. apply size_pop_n; auto. Qed.

(* ------------------------------------------------------------------ *)
(** ** Accounting in the uncompressed drain *)

Definition held (p : phase) : list sample := match p with Idle => [] | Holding s => [s] end.

Definition accounted (all : list sample) (st : ust) : Prop :=
  exists left, shuffle (u_log st) (u_gone st) left /\
    all = left ++ held (u_phase st) ++ q_list (u_q st).

Lemma take_loop_spec : forall known stop n q gone, exists k,
  let '(q', ph, gone') := take_loop known stop n q gone in
  gone' = gone ++ k /\ q_list q = k ++ held ph ++ q_list q' /\
  (size_right q -> size_right q').
Proof.
  induction n; intros q gone; cbn [take_loop].
  - exists []. rewrite app_nil_r. auto.
  - unfold get_sample at 1. destruct (q_list q) as [|s r] eqn:E.
    + exists []. rewrite app_nil_r, E. auto.
    + assert (G : get_sample q = Some (s, mkQ r (sub64 (q_size q) (sample_size s)))).
      { unfold get_sample. rewrite E. reflexivity. }
      destruct ((0 <? stop) && (stop <? s_ts s)).
      { exists [s]. cbn. repeat split; auto. intros; eapply size_get; eauto. }
      destruct (known s).
      { exists []. rewrite app_nil_r. cbn. repeat split; auto. intros; eapply size_get; eauto. }
      destruct (IHn (mkQ r (sub64 (q_size q) (sample_size s))) (gone ++ [s])) as (k & K).
      exists (s :: k). destruct (take_loop _ _ _ _ _) as [[q' ph] gone'].
      destruct K as (K1 & K2 & K3). rewrite K1, <- app_assoc. cbn [q_list] in K2. rewrite K2.
      repeat split; auto. intros; apply K3. eapply size_get; eauto.
Qed.

Lemma take_accounted : forall d c st all, u_phase st = Idle -> accounted all st ->
  accounted all (take d c st).
Proof.
  intros d c st all P (left & SH & E). unfold take.
  destruct (take_loop_spec (is_known d) (c_stop c) (length (q_list (u_q st))) (u_q st) (u_gone st))
    as (k & K).
  destruct (take_loop _ _ _ _ _) as [[q' ph] gone']. destruct K as (K1 & K2 & _).
  exists (left ++ k). cbn [u_log u_gone u_phase u_q]. rewrite K1. split.
  - apply shuffle_r_app; auto.
  - rewrite E, P, K2. cbn [held app]. rewrite <- app_assoc. reflexivity.
Qed.

Lemma work_accounted : forall d has_sd stale c st all, accounted all st ->
  accounted all (work d has_sd stale c st).
Proof.
  intros d has_sd stale c st all (left & SH & E). unfold work.
  destruct (u_phase st) as [|s] eqn:P.
  - apply take_accounted; [reflexivity|].
    exists (left ++ firstn (length (q_list (u_q st)) - length (q_list (cfg_trim stale c (u_q st)))) (q_list (u_q st))).
    cbn [u_log u_gone u_phase u_q held app]. split; [apply shuffle_r_app; auto|].
    rewrite <- app_assoc, cfg_trim_split. exact E.
  - destruct (emit4 d has_sd (u_enc st) s) as [[bytes e]|]; apply take_accounted; try reflexivity;
      exists (left ++ [s]); cbn [u_log u_gone u_phase u_q held app];
      (split; [(apply shuffle_l_app || apply shuffle_r_app); auto|]);
      rewrite E, <- app_assoc; reflexivity.
Qed.

Lemma save_accounted : forall s st all, accounted all st -> accounted (all ++ [s]) (save s st).
Proof.
  intros s st all (left & SH & E). exists left. split; auto.
  cbn [save u_phase u_q add_sample q_list]. rewrite E, <- !app_assoc. reflexivity.
Qed.

Lemma run_accounted : forall sch d has_sd stale c st all, accounted all st ->
  accounted (all ++ saved sch) (run d has_sd stale c sch st).
Proof.
  induction sch as [|a r IH]; intros d has_sd stale c st all H; cbn [run saved].
  - rewrite app_nil_r. auto.
  - destruct a as [s|]; cbn [saved].
    + replace (all ++ s :: saved r) with ((all ++ [s]) ++ saved r) by (rewrite <- app_assoc; reflexivity).
      apply IH, save_accounted; auto.
    + apply IH, work_accounted; auto.
Qed.

Lemma accounted0 : accounted [] ust0.
Proof. exists []. split; [constructor|reflexivity]. Qed.

(** ** Nothing is dropped without reason *)

Lemma take_loop_gone : forall known stop n q gone, stop = 0 ->
  (forall s, In s (q_list q) -> known s = true) ->
  snd (take_loop known stop n q gone) = gone.
Proof.
  intros known stop n q gone Hs K. destruct n as [|n]; [reflexivity|]. cbn [take_loop].
  unfold get_sample. destruct (q_list q) as [|s r]; [reflexivity|].
  rewrite Hs. cbn [N.ltb andb]. change (0 <? 0) with false. cbn [andb].
  rewrite (K s) by (left; auto). reflexivity.
Qed.

Definition all_known (d : dgroup) (l : list sample) : Prop := forall s, In s l -> is_known d s = true.

Lemma take_gone : forall d c st, c_stop c = 0 -> all_known d (q_list (u_q st)) ->
  u_gone (take d c st) = u_gone st.
Proof.
  intros d c st H K. unfold take.
  pose proof (take_loop_gone (is_known d) (c_stop c) (length (q_list (u_q st))) (u_q st) (u_gone st) H K) as T.
  destruct (take_loop _ _ _ _ _) as [[q ph] gone]. exact T.
Qed.

Lemma accounted_known : forall d all st, accounted all st -> all_known d all ->
  all_known d (q_list (u_q st)) /\ (forall s, u_phase st = Holding s -> is_known d s = true).
Proof.
  intros d all st (left & _ & E) K. split.
  - intros s Hs. apply K. rewrite E. apply in_or_app; right. apply in_or_app; right; auto.
  - intros s P. apply K. rewrite E, P. apply in_or_app; right. left; auto.
Qed.

Lemma emit_known : forall d has_sd e s, is_known d s = true -> exists x, emit4 d has_sd e s = Some x.
Proof.
  intros d has_sd e s H. unfold is_known in H. unfold emit4.
  destruct (find_cg_record_id d (s_id s)); [eauto|discriminate].
Qed.

Lemma work_gone : forall d has_sd stale c st all, accounted all st -> all_known d all ->
  c_stop c = 0 -> keeps_all c all -> u_gone (work d has_sd stale c st) = u_gone st.
Proof.
  intros d has_sd stale c st all A K HS HT.
  destruct (accounted_known d all st A K) as [K1 K2]. unfold work.
  destruct (u_phase st) as [|s] eqn:P.
  - rewrite cfg_trim_id.
    + rewrite Nat.sub_diag, firstn_O, app_nil_r. rewrite take_gone by auto. reflexivity.
    + apply (keeps_sub c all); auto. destruct A as (left & _ & E). intros s Hs. rewrite E.
      apply in_or_app; right. apply in_or_app; right; auto.
  - destruct (emit_known d has_sd (u_enc st) s (K2 s eq_refl)) as [[b e] ->].
    rewrite take_gone by auto. reflexivity.
Qed.

Lemma run_gone : forall sch d has_sd stale c st all, accounted all st ->
  all_known d (all ++ saved sch) -> c_stop c = 0 -> keeps_all c (all ++ saved sch) ->
  u_gone (run d has_sd stale c sch st) = u_gone st.
Proof.
  induction sch as [|a r IH]; intros d has_sd stale c st all A K HS HT; cbn [run]; [reflexivity|].
  assert (KA : all_known d all) by (intros s Hs; apply K, in_or_app; left; auto).
  assert (TA : keeps_all c all) by (apply (keeps_sub c _ _ HT); intros s Hs; apply in_or_app; left; auto).
  destruct a as [s|]; cbn [saved] in K, HT.
  - rewrite (IH d has_sd stale c (save s st) (all ++ [s])); auto using save_accounted;
      rewrite <- app_assoc; assumption.
  - rewrite (IH d has_sd stale c _ all); auto using work_accounted.
    apply (work_gone d has_sd stale c st all); auto.
Qed.

(** ** The queue gets empty *)

Lemma take_loop_stop0 : forall known n q gone, 
  (forall s, In s (q_list q) -> known s = true) ->
  take_loop known 0 n q gone =
  match n, q_list q with
  | S _, s :: r => (mkQ r (sub64 (q_size q) (sample_size s)), Holding s, gone)
  | _, _ => (q, Idle, gone)
  end.
Proof.
  intros known n q gone K. destruct n as [|n]; [reflexivity|]. cbn [take_loop]. unfold get_sample.
  destruct (q_list q) as [|s r] eqn:E; [reflexivity|].
  change (0 <? 0) with false. cbn [andb]. rewrite (K s) by (left; auto). reflexivity.
Qed.

Definition works (n : nat) : list act := repeat Work n.

Lemma drain_holding : forall l d has_sd stale c st all, accounted all st -> all_known d all ->
  c_stop c = 0 -> q_list (u_q st) = l ->
  (exists s, u_phase st = Holding s) ->
  forall n, (length l < n)%nat ->
  let st' := run d has_sd stale c (works n) st in
  exists m, (m <= n)%nat /\ let st1 := run d has_sd stale c (works m) st in
    u_phase st1 = Idle /\ q_list (u_q st1) = [].
Proof.
  induction l as [|x l IH]; intros d has_sd stale c st all A K HS E (s & P) n L; cbv zeta.
  - exists 1%nat. split; [lia|]. cbn [works repeat run]. unfold work. rewrite P.
    destruct (accounted_known d all st A K) as [_ K2].
    destruct (emit_known d has_sd (u_enc st) s (K2 s P)) as [[b e] ->].
    unfold take. cbn [u_q]. rewrite E. cbn [length take_loop]. split; [reflexivity|exact E].
  - destruct (accounted_known d all st A K) as [K1 K2].
    destruct n as [|n]; [cbn in L; lia|].
    destruct (IH d has_sd stale c (work d has_sd stale c st) all) with (n := n) as (m & M1 & M2).
    + apply work_accounted; auto.
    + auto.
    + auto.
    + unfold work. rewrite P. destruct (emit_known d has_sd (u_enc st) s (K2 s P)) as [[b e] ->].
      unfold take. cbn [u_q u_gone]. rewrite HS.
      rewrite (take_loop_stop0 (is_known d)) by exact K1. rewrite E. reflexivity.
    + exists x. unfold work. rewrite P. destruct (emit_known d has_sd (u_enc st) s (K2 s P)) as [[b e] ->].
      unfold take. cbn [u_q u_gone]. rewrite HS.
      rewrite (take_loop_stop0 (is_known d)) by exact K1. rewrite E. reflexivity.
    + cbn [length] in L. lia.
    + exists (S m). split; [lia|]. exact M2.
Qed.

Lemma run_app : forall a b d has_sd stale c st,
  run d has_sd stale c (a ++ b) st = run d has_sd stale c b (run d has_sd stale c a st).
Proof. induction a as [|x a IH]; intros; [reflexivity|]. destruct x; cbn [app run]; apply IH. Qed.

(** From any point, one full drain (no saves in between) empties the queue. *)
Lemma drain_empties : forall d has_sd stale c st all, accounted all st -> all_known d all ->
  c_stop c = 0 ->
  exists m, (m <= S (length (q_list (u_q st))))%nat /\
    let st1 := run d has_sd stale c (works m) st in u_phase st1 = Idle /\ q_list (u_q st1) = [].
Proof.
  intros d has_sd stale c st all A K HS.
  destruct (u_phase st) as [|s] eqn:P.
  - destruct (q_list (u_q st)) as [|x r] eqn:E.
    { exists 0%nat. split; [lia|]. cbn. auto. }
    pose proof (work_accounted d has_sd stale c st all A) as A1.
    set (st1 := work d has_sd stale c st) in *.
    assert (Q : (length (q_list (u_q st1)) < length (x :: r))%nat /\ exists s, u_phase st1 = Holding s).
    { unfold st1, work. rewrite P. 
      assert (KT : forall s, In s (q_list (cfg_trim stale c (u_q st))) -> is_known d s = true).
      { intros s Hs. apply (proj1 (accounted_known d all st A K)).
        rewrite <- (cfg_trim_split stale c (u_q st)). apply in_or_app; auto. }
      assert (NE : q_list (cfg_trim stale c (u_q st)) <> []).
      { unfold cfg_trim. destruct (c_trim c); [|congruence]. rewrite trim_queue_list.
        apply trim_list_nonempty. congruence. }
      assert (LE : (length (q_list (cfg_trim stale c (u_q st))) <= length (x :: r))%nat).
      { pose proof (f_equal (@length sample) (cfg_trim_split stale c (u_q st))) as F.
        rewrite app_length, E in F. lia. }
      unfold take. cbn [u_q u_gone]. rewrite HS, take_loop_stop0 by exact KT.
      destruct (q_list (cfg_trim stale c (u_q st))) as [|y t] eqn:EY; [congruence|].
      cbn [length] in *. split; [cbn [u_q q_list]; lia|exists y; reflexivity]. }
    destruct Q as (Q1 & Q2).
    destruct (drain_holding (q_list (u_q st1)) d has_sd stale c st1 all A1 K HS eq_refl Q2
                (S (length (q_list (u_q st1)))) ltac:(lia)) as (m & M1 & M2).
    exists (S m). split; [cbn [length] in *; lia|]. exact M2.
  - destruct (drain_holding (q_list (u_q st)) d has_sd stale c st all A K HS eq_refl
                (ex_intro _ s P) (S (length (q_list (u_q st)))) ltac:(lia)) as (m & M1 & M2).
    exists m. split; [lia|]. exact M2.
Qed.

(** ** Size counter in any schedule *)

Lemma take_size : forall d c st, size_right (u_q st) -> size_right (u_q (take d c st)).
Proof.
  intros d c st H. unfold take.
  destruct (take_loop_spec (is_known d) (c_stop c) (length (q_list (u_q st))) (u_q st) (u_gone st))
    as (k & K).
  destruct (take_loop _ _ _ _ _) as [[q' ph] gone']. destruct K as (_ & _ & K). apply K; auto.
Qed.

Lemma run_size : forall sch d has_sd c st, size_right (u_q st) ->
  size_right (u_q (run d has_sd sample_size c sch st)).
Proof.
  induction sch as [|a r IH]; intros d has_sd c st H; cbn [run]; auto.
  destruct a as [s|]; apply IH.
  - apply size_add; auto.
  - unfold work. destruct (u_phase st).
    + apply take_size. apply size_trim; auto.
    + destruct (emit4 d has_sd (u_enc st) s) as [[b e]|]; apply take_size; auto.
Qed.
