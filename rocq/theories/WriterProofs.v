(** Proofs about a whole measurement. *)
From Verif Require Import Base StreamModel StreamSpec IdProofs QueueModel QueueSpec QueueProofs
  EncProofs QueueProofs2 WriterModel.
Local Open Scope N_scope.

Fixpoint wsaves (ops : list wop) : list sample :=
  match ops with
  | [] => []
  | OSave s :: r => s :: wsaves r
  | _ :: r => wsaves r
  end.

Lemma wsaves_app : forall a b, wsaves (a ++ b) = wsaves a ++ wsaves b.
Proof. induction a as [|x a IH]; intros; [reflexivity|]. destruct x; cbn [app wsaves]; rewrite IH; reflexivity. Qed.

Lemma wrun_app : forall a b d h s p w, wrun d h s p (a ++ b) w = wrun d h s p b (wrun d h s p a w).
Proof. induction a as [|x a IH]; intros; [reflexivity|]. cbn [app wrun]. apply IH. Qed.

(* ------------------------------------------------------------------ *)
(** ** Every saved sample is accounted for *)

Definition ledger (all : list sample) (w : wst) : Prop :=
  exists acc, accounted acc (w_u w) /\ all = acc ++ w_late w /\ (w_alive w = true -> w_late w = []) /\
    (w_alive w = false -> w_pc w = Finished) /\
    (w_pc w = Finished \/ w_pc w = Loop -> u_phase (w_u w) = Idle).

Lemma drain_ledger : forall d h st inside back w all, ledger all w -> w_pc w <> Finished ->
  inside <> Finished -> inside <> Loop -> ledger all (drain_step d h st inside back w).
Proof.
  intros d h st inside back w all (acc & A & E & L & F & P) NF NI NL.
  exists acc. unfold drain_step. cbv zeta. cbn [w_u w_late w_alive w_pc set_pc set_u].
  split; [apply work_accounted; auto|]. split; auto. split; auto. split.
  - intros X. specialize (F X). congruence.
  - destruct (u_phase (work d h st (w_cfg w) (w_u w))); cbn [is_idle]; intros [X|X]; congruence.
Qed.

Lemma trim_accounted : forall st c u all, u_phase u = Idle -> accounted all u -> accounted all (trim_only st c u).
Proof.
  intros st c u all P (left & S & E). rewrite P in E. cbn [held app] in E.
  eexists. unfold trim_only. cbv zeta. cbn [u_log u_gone u_phase u_q].
  split; [apply shuffle_r_app; exact S|]. rewrite P. cbn [held app]. rewrite <- app_assoc, cfg_trim_split. exact E.
Qed.

Lemma tick_ledger : forall d h st p w all, ledger all w -> ledger all (tick d h st p w).
Proof.
  intros d h st p w all H. unfold tick. destruct (w_pc w) eqn:P.
  - destruct (w_stopping w); [apply drain_ledger; auto; congruence|].
    destruct (w_started w).
    + destruct p; auto. apply drain_ledger; auto; congruence.
    + destruct H as (acc & A & E & L & F & PH). exists acc. cbn [set_u w_u w_late w_alive w_pc].
      split; [apply trim_accounted; auto|]. split; [auto|]. split; [auto|]. split; [auto|].
      intros X. unfold trim_only. cbv zeta. cbn [u_phase]. auto.
  - apply drain_ledger; auto; congruence.
  - apply drain_ledger; auto; congruence.
  - auto.
Qed.

Lemma wstep_ledger : forall d h st p o w all, ledger all w ->
  ledger (all ++ match o with OSave s => [s] | _ => [] end) (wstep d h st p o w).
Proof.
  intros d h st p o w all H. destruct o as [s| |t| |t]; cbn [wstep].
  - destruct H as (acc & A & E & L & F & PH). destruct (w_alive w) eqn:AL.
    + exists (acc ++ [s]). cbn [set_u w_u w_late w_alive w_pc]. rewrite (L eq_refl) in *.
      split; [apply save_accounted; auto|]. rewrite AL. rewrite app_nil_r in E. subst all.
      split; [rewrite app_nil_r; auto|]. split; auto.
    + exists acc. cbn [w_u w_late w_alive w_pc]. split; auto. subst all.
      rewrite app_assoc. split; auto. split; [discriminate|]. split; auto.
  - rewrite app_nil_r. apply tick_ledger; auto.
  - rewrite app_nil_r. destruct H as (acc & A & E & L & F & PH). exists acc. auto.
  - rewrite app_nil_r. destruct H as (acc & A & E & L & F & PH). exists acc. auto.
  - rewrite app_nil_r. destruct (w_pc w) eqn:P; auto.
    destruct H as (acc & (left & S & EA) & E & L & F & PH). rewrite P in PH. specialize (PH (or_introl eq_refl)).
    exists acc. cbn [w_u w_late w_alive w_pc]. split; [|split; [auto|split; [discriminate|split; auto]]].
    + eexists. cbn [u_log u_gone u_phase u_q q_list]. split; [apply shuffle_r_app; exact S|].
      rewrite PH in *. cbn [held app] in *. rewrite app_nil_r. exact EA.
Qed.

Lemma wrun_ledger : forall ops d h st p w all, ledger all w ->
  ledger (all ++ wsaves ops) (wrun d h st p ops w).
Proof.
  induction ops as [|o r IH]; intros d h st p w all H; cbn [wrun wsaves].
  - rewrite app_nil_r. auto.
  - pose proof (wstep_ledger d h st p o w all H) as S. apply (IH d h st p) in S.
    rewrite <- app_assoc in S. destruct o; exact S.
Qed.

Lemma ledger0 : forall pre trim, ledger [] (winit pre trim).
Proof. intros. exists []. split; [apply accounted0|]. cbn. split; [auto|]. split; [auto|]. split; [congruence|auto]. Qed.

(* ------------------------------------------------------------------ *)
(** ** What leaves the queue unwritten *)

Lemma sorted_app : forall a b, sorted_ts (a ++ b) -> sorted_ts b.
Proof. induction a as [|x a IH]; intros b H; auto. apply IH. eapply sorted_tail; eauto. Qed.

Lemma sorted_le : forall a x b y, sorted_ts (a ++ x :: b) -> In y b -> s_ts x <= s_ts y.
Proof. intros a x b y H Hi. apply sorted_app in H. apply (sorted_head b x); auto. Qed.

(** The trimmed samples are older than the pre-trigger window before [T]. *)
Lemma trim_window : forall st c q T, sorted_ts (q_list q) -> T < 2 ^ 64 ->
  (forall s, In s (q_list q) -> s_ts s < 2 ^ 64) -> 0 < T ->
  (c_start c = 0 /\ (forall s, In s (q_list q) -> s_ts s <= T) \/ c_start c = T /\ c_pre c <= T) ->
  forall s, In s (firstn (length (q_list q) - length (q_list (cfg_trim st c q))) (q_list q)) ->
  s_ts s + c_pre c < T.
Proof.
  intros st c q T S HT B TP C s Hs. unfold cfg_trim in Hs. destruct (c_trim c).
  2: { rewrite Nat.sub_diag in Hs. destruct Hs. }
  rewrite trim_queue_list in Hs.
  assert (K : forall start dropped, q_list q = dropped ++ trim_list start (c_pre c) (q_list q) ->
    In s (firstn (length (q_list q) - length (trim_list start (c_pre c) (q_list q))) (q_list q)) ->
    In s dropped).
  { intros start dropped E Hi. pose proof (f_equal (@length sample) E) as LE. rewrite app_length in LE.
    replace (length (q_list q) - length (trim_list start (c_pre c) (q_list q)))%nat with (length dropped) in Hi by lia.
    rewrite E, firstn_app, Nat.sub_diag, firstn_O, app_nil_r, firstn_all in Hi. exact Hi. }
  destruct C as [[C1 C2]|[C1 C2]].
  - rewrite C1 in Hs.
    destruct (trim_waiting (c_pre c) (q_list q) s S B) as (dropped & E & D & _).
    pose proof (K 0 dropped E Hs) as Hd. specialize (D s Hd).
    assert (LI : s_ts (last (q_list q) s) <= T).
    { destruct (last_in (q_list q) s) as [X|X].
      - rewrite <- X. apply C2. rewrite E. apply in_or_app. left; auto.
      - apply C2; auto. }
    lia.
  - rewrite C1 in Hs.
    destruct (trim_started T (c_pre c) (q_list q) TP C2 HT S) as (dropped & E & D & _).
    pose proof (K T dropped E Hs) as Hd. specialize (D s Hd). lia.
Qed.

Record alive_ok (d : dgroup) (h : N -> bool) (T : N) (all : list sample) (w : wst) : Prop := {
  ao_acc : accounted all (w_u w);
  ao_stop : c_stop (w_cfg w) = 0;
  ao_phase : w_pc w = Finished \/ w_pc w = Loop -> u_phase (w_u w) = Idle;
  ao_gone : forall s, In s (u_gone (w_u w)) -> s_ts s + c_pre (w_cfg w) < T;
  ao_emit : u_emitted d h (w_u w);
  ao_alive : w_alive w = true;
  ao_late : w_late w = []
}.

Definition cfg_ok (T : N) (all : list sample) (c : cfg) : Prop :=
  c_start c = 0 /\ (forall s, In s all -> s_ts s <= T) \/ c_start c = T /\ c_pre c <= T.

Lemma acc_queue : forall all u, accounted all u -> forall s, In s (q_list (u_q u)) -> In s all.
Proof.
  intros all u (left & _ & E) s Hs. rewrite E. apply in_or_app; right. apply in_or_app; right; auto.
Qed.

Lemma acc_sorted : forall all u, accounted all u -> sorted_ts all -> sorted_ts (q_list (u_q u)).
Proof. intros all u (left & _ & E) S. rewrite E in S. apply sorted_app in S. apply sorted_app in S. auto. Qed.

Lemma trim_gone_window : forall st c u all T, accounted all u -> sorted_ts all -> T < 2 ^ 64 -> 0 < T ->
  (forall s, In s all -> s_ts s < 2 ^ 64) -> cfg_ok T all c ->
  forall s, In s (firstn (length (q_list (u_q u)) - length (q_list (cfg_trim st c (u_q u)))) (q_list (u_q u))) ->
  s_ts s + c_pre c < T.
Proof.
  intros st c u all T A S HT TP B C s Hs.
  apply (trim_window st c (u_q u) T); auto.
  - eapply acc_sorted; eauto.
  - intros x Hx. apply B. eapply acc_queue; eauto.
  - destruct C as [[C1 C2]|C]; [left|right; auto]. split; auto. intros x Hx. apply C2. eapply acc_queue; eauto.
Qed.

Lemma work_gone_window : forall d h st c u all T, accounted all u -> sorted_ts all -> T < 2 ^ 64 -> 0 < T ->
  (forall s, In s all -> s_ts s < 2 ^ 64) -> cfg_ok T all c -> all_known d all -> c_stop c = 0 ->
  (forall s, In s (u_gone u) -> s_ts s + c_pre c < T) ->
  forall s, In s (u_gone (work d h st c u)) -> s_ts s + c_pre c < T.
Proof.
  intros d h st c u all T A S HT TP B C K ST G s Hs.
  destruct (accounted_known d all u A K) as [K1 K2]. unfold work in Hs.
  destruct (u_phase u) as [|x] eqn:P.
  - rewrite take_gone in Hs; auto.
    + cbn [u_gone] in Hs. apply in_app_or in Hs as [Hs|Hs]; auto.
      eapply trim_gone_window; eauto.
    + cbn [u_q]. intros y Hy. apply K1. rewrite <- (cfg_trim_split st c (u_q u)). apply in_or_app; auto.
  - destruct (emit_known d h (u_enc u) x (K2 x eq_refl)) as [[b e] M]. rewrite M in Hs.
    rewrite take_gone in Hs; auto.
Qed.

Lemma drain_alive : forall d h st inside back w all T, dg_ok d -> Forall (sample_ok d) all ->
  sorted_ts all -> T < 2 ^ 64 -> 0 < T -> (forall s, In s all -> s_ts s < 2 ^ 64) ->
  cfg_ok T all (w_cfg w) -> alive_ok d h T all w -> inside <> Finished -> inside <> Loop ->
  alive_ok d h T all (drain_step d h st inside back w).
Proof.
  intros d h st inside back w all T H F S HT TP B C [A ST PH G EM AL LT] NF NL.
  pose proof (known_all d all H F) as K.
  constructor; unfold drain_step; cbv zeta; cbn [w_u w_cfg w_pc w_alive w_late set_pc set_u]; auto.
  - apply work_accounted; auto.
  - destruct (u_phase (work d h st (w_cfg w) (w_u w))); cbn [is_idle]; intros [X|X]; congruence.
  - eapply work_gone_window; eauto.
  - eapply work_emitted; eauto.
Qed.

Lemma tick_alive : forall d h st p w all T, dg_ok d -> Forall (sample_ok d) all ->
  sorted_ts all -> T < 2 ^ 64 -> 0 < T -> (forall s, In s all -> s_ts s < 2 ^ 64) ->
  cfg_ok T all (w_cfg w) -> alive_ok d h T all w -> alive_ok d h T all (tick d h st p w).
Proof.
  intros d h st p w all T H F S HT TP B C AO. unfold tick. destruct (w_pc w) eqn:P.
  - destruct (w_stopping w); [apply drain_alive; auto; discriminate|].
    destruct (w_started w).
    + destruct p; auto. apply drain_alive; auto; discriminate.
    + destruct AO as [A ST PH G EM AL LT]. constructor; cbn [w_u w_cfg w_pc w_alive w_late set_u]; auto.
      * apply trim_accounted; auto.
      * unfold trim_only. cbv zeta. cbn [u_gone]. intros s Hs. apply in_app_or in Hs as [Hs|Hs]; auto.
        eapply trim_gone_window; eauto.
  - apply drain_alive; auto; discriminate.
  - apply drain_alive; auto; discriminate.
  - auto.
Qed.

Lemma tick_cfg : forall d h st p w, w_cfg (tick d h st p w) = w_cfg w.
Proof.
  intros. unfold tick. destruct (w_pc w); try reflexivity.
  destruct (w_stopping w); [reflexivity|]. destruct (w_started w); [destruct p|]; reflexivity.
Qed.

Definition plain (o : wop) : Prop := match o with OSave _ | OTick => True | _ => False end.

Lemma cfg_ok_sub : forall T a b c, cfg_ok T (a ++ b) c -> cfg_ok T a c.
Proof.
  intros T a b c [[C1 C2]|C]; [left|right; auto]. split; auto. intros s Hs. apply C2, in_or_app; auto.
Qed.

Lemma sorted_prefix : forall a b, sorted_ts (a ++ b) -> sorted_ts a.
Proof.
  induction a as [|x a IH]; intros b H; [exact I|]. destruct a as [|y a]; [exact I|].
  destruct H as [H1 H2]. split; auto. apply (IH b); auto.
Qed.

Lemma plain_run : forall ops d h st p w all T, dg_ok d -> Forall plain ops ->
  Forall (sample_ok d) (all ++ wsaves ops) -> sorted_ts (all ++ wsaves ops) -> T < 2 ^ 64 -> 0 < T ->
  (forall s, In s (all ++ wsaves ops) -> s_ts s < 2 ^ 64) ->
  cfg_ok T (all ++ wsaves ops) (w_cfg w) -> alive_ok d h T all w ->
  alive_ok d h T (all ++ wsaves ops) (wrun d h st p ops w) /\
  w_cfg (wrun d h st p ops w) = w_cfg w.
Proof.
  induction ops as [|o r IH]; intros d h st p w all T H PL F S HT TP B C AO; cbn [wrun wsaves].
  - rewrite app_nil_r. auto.
  - apply Forall_cons_iff in PL as [PO PL]. destruct o as [s| |t| |t]; try destruct PO; cbn [wsaves wstep] in *.
    + rewrite (ao_alive _ _ _ _ _ AO).
      replace (all ++ s :: wsaves r) with ((all ++ [s]) ++ wsaves r) in * by (rewrite <- app_assoc; reflexivity).
      destruct (IH d h st p (set_u (save s (w_u w)) w) (all ++ [s]) T) as [R1 R2]; auto.
      destruct AO as [A ST PH G EM AL LT]. constructor; cbn [w_u w_cfg w_pc w_alive w_late set_u]; auto.
      apply save_accounted; auto.
    + destruct (IH d h st p (tick d h st p w) all T) as [R1 R2]; auto.
      * rewrite tick_cfg. auto.
      * apply tick_alive; auto.
        -- apply Forall_app in F; tauto.
        -- eapply sorted_prefix; eauto.
        -- intros x Hx. apply B, in_or_app; auto.
        -- eapply cfg_ok_sub; eauto.
      * split; auto. rewrite R2, tick_cfg. reflexivity.
Qed.

(** A measurement: saves before the start (with time stamps up to the start time), the start, more
    saves, then the stop with the worker getting its turns. *)
Definition measurement (ops1 : list wop) (T : N) (ops2 : list wop) (n : nat) : list wop :=
  ops1 ++ OStart T :: ops2 ++ OStop :: repeat OTick n.

Lemma ticks_saves : forall n, wsaves (repeat OTick n) = [].
Proof. induction n; auto. Qed.
Lemma ticks_plain : forall n, Forall plain (repeat OTick n).
Proof. induction n; constructor; auto. exact I. Qed.

Lemma measurement_alive : forall d h st p pre trim ops1 T ops2 n, dg_ok d ->
  Forall plain ops1 -> Forall plain ops2 ->
  Forall (sample_ok d) (wsaves ops1 ++ wsaves ops2) -> sorted_ts (wsaves ops1 ++ wsaves ops2) ->
  (forall s, In s (wsaves ops1 ++ wsaves ops2) -> s_ts s < 2 ^ 64) ->
  (forall s, In s (wsaves ops1) -> s_ts s <= T) ->
  0 < T -> T < 2 ^ 64 -> pre <= T ->
  let w := wrun d h st p (measurement ops1 T ops2 n) (winit pre trim) in
  alive_ok d h T (wsaves ops1 ++ wsaves ops2) w /\ w_cfg w = mkC T pre 0 trim.
Proof.
  intros d h st p pre trim ops1 T ops2 n H P1 P2 F S B BT TP HT HP.
  unfold measurement. rewrite wrun_app. cbn [wrun]. rewrite wrun_app. cbn [wrun]. cbv zeta.
  assert (I0 : alive_ok d h T [] (winit pre trim)).
  { constructor; auto; try reflexivity.
    - apply accounted0.
    - intros s [].
    - apply emitted0. }
  destruct (plain_run ops1 d h st p (winit pre trim) [] T H P1) as [A1 C1]; auto; cbn [app].
  - apply Forall_app in F; tauto.
  - eapply sorted_prefix; eauto.
  - intros s Hs. apply B, in_or_app; auto.
  - left. split; auto.
  - cbn [app] in A1. set (w1 := wrun d h st p ops1 (winit pre trim)) in *.
    assert (A2 : alive_ok d h T (wsaves ops1) (wstep d h st p (OStart T) w1) /\
                 w_cfg (wstep d h st p (OStart T) w1) = mkC T pre 0 trim).
    { split; [|cbn [wstep w_cfg]; rewrite C1; reflexivity].
      destruct A1 as [A ST PH G EM AL LT]. constructor; cbn [wstep w_u w_cfg w_pc w_alive w_late]; auto. }
    destruct A2 as [A2 C2]. set (w2 := wstep d h st p (OStart T) w1) in *.
    destruct (plain_run ops2 d h st p w2 (wsaves ops1) T H P2) as [A3 C3]; auto.
    { right. rewrite C2. auto. }
    set (w3 := wrun d h st p ops2 w2) in *.
    assert (A4 : alive_ok d h T (wsaves ops1 ++ wsaves ops2) (wstep d h st p OStop w3)).
    { destruct A3 as [A ST PH G EM AL LT]. constructor; auto. }
    assert (C4 : w_cfg (wstep d h st p OStop w3) = mkC T pre 0 trim) by (cbn [wstep w_cfg]; congruence).
    destruct (plain_run (repeat OTick n) d h st p (wstep d h st p OStop w3) (wsaves ops1 ++ wsaves ops2) T H (ticks_plain n))
      as [A5 C5]; rewrite ?ticks_saves, ?app_nil_r in *; auto.
    { right. rewrite C4. auto. }
    split; auto. congruence.
Qed.

(** ** The stop completes *)

Definition wmeasure (w : wst) : nat :=
  let l := length (q_list (u_q (w_u w))) in
  match w_pc w with
  | Loop => l + 2
  | InSave => l + 4
  | Cleaning => l + 1
  | Finished => 0
  end%nat.

(** Coherence of the program counter with the phase, and Finished means an empty queue. *)
Definition pc_ok (w : wst) : Prop :=
  match w_pc w with
  | Loop => u_phase (w_u w) = Idle
  | InSave | Cleaning => exists s, u_phase (w_u w) = Holding s
  | Finished => u_phase (w_u w) = Idle
  end.

Lemma work_queue : forall d h st c u all, accounted all u -> all_known d all -> c_stop c = 0 ->
  let u' := work d h st c u in
  (u_phase u' = Idle /\ q_list (u_q u') = []) \/
  (exists s, u_phase u' = Holding s) /\ (length (q_list (u_q u')) < length (q_list (u_q u)))%nat.
Proof.
  intros d h st c u all A K HS. cbv zeta. destruct (accounted_known d all u A K) as [K1 K2].
  assert (T : forall u1, (forall s, In s (q_list (u_q u1)) -> is_known d s = true) ->
    (length (q_list (u_q u1)) <= length (q_list (u_q u)))%nat ->
    (u_phase (take d c u1) = Idle /\ q_list (u_q (take d c u1)) = []) \/
    (exists s, u_phase (take d c u1) = Holding s) /\
      (length (q_list (u_q (take d c u1))) < length (q_list (u_q u)))%nat).
  { intros u1 K0 L. unfold take. rewrite HS, take_loop_stop0 by auto.
    destruct (q_list (u_q u1)) as [|s r] eqn:Q; cbn [length] in *.
    - left. cbn [u_phase u_q]. auto.
    - right. cbn [u_phase u_q q_list]. split; [eauto|lia]. }
  unfold work. destruct (u_phase u) as [|s] eqn:P.
  - apply T; cbn [u_q].
    + intros y Hy. apply K1. rewrite <- (cfg_trim_split st c (u_q u)). apply in_or_app; auto.
    + pose proof (f_equal (@length sample) (cfg_trim_split st c (u_q u))) as X. rewrite app_length in X. lia.
  - destruct (emit_known d h (u_enc u) s (K2 s eq_refl)) as [[b e] ->]. apply T; cbn [u_q]; auto.
Qed.

Lemma stop_measure : forall d h st p w all, accounted all (w_u w) -> all_known d all ->
  c_stop (w_cfg w) = 0 -> w_stopping w = true ->
  (w_pc w = Finished -> q_list (u_q (w_u w)) = []) ->
  w_pc w <> Finished ->
  let w' := tick d h st p w in
  (wmeasure w' < wmeasure w)%nat /\ w_stopping w' = true /\
  (w_pc w' = Finished -> q_list (u_q (w_u w')) = []).
Proof.
  intros d h st p w all A K HS STP FQ NF. cbv zeta. unfold tick. destruct (w_pc w) eqn:P; [| | |congruence].
  - rewrite STP. unfold drain_step, wmeasure. cbv zeta. rewrite P. cbn [w_pc w_u w_stopping set_pc set_u].
    destruct (work_queue d h st (w_cfg w) (w_u w) all A K HS) as [[W1 W2]|[[s W1] W2]]; rewrite W1; cbn [is_idle].
    + split; [lia|]. auto.
    + split; [lia|]. split; auto. discriminate.
  - unfold drain_step, wmeasure. cbv zeta. rewrite P. cbn [w_pc w_u w_stopping set_pc set_u].
    destruct (work_queue d h st (w_cfg w) (w_u w) all A K HS) as [[W1 W2]|[[s W1] W2]]; rewrite W1; cbn [is_idle].
    + rewrite W2. cbn [length]. split; [lia|]. split; auto.
    + split; [lia|]. split; auto. discriminate.
  - unfold drain_step, wmeasure. cbv zeta. rewrite P. cbn [w_pc w_u w_stopping set_pc set_u].
    destruct (work_queue d h st (w_cfg w) (w_u w) all A K HS) as [[W1 W2]|[[s W1] W2]]; rewrite W1; cbn [is_idle].
    + split; [lia|]. auto.
    + split; [lia|]. split; auto. discriminate.
Qed.

Lemma tick_accounted : forall d h st p w all, accounted all (w_u w) ->
  (w_pc w = Loop -> u_phase (w_u w) = Idle) -> accounted all (w_u (tick d h st p w)).
Proof.
  intros d h st p w all A P. unfold tick. destruct (w_pc w); auto.
  - destruct (w_stopping w); [apply work_accounted; auto|].
    destruct (w_started w); [destruct p; auto; apply work_accounted; auto|].
    apply trim_accounted; auto.
  - apply work_accounted; auto.
  - apply work_accounted; auto.
Qed.

Lemma stop_completes : forall n d h st p w all, accounted all (w_u w) -> all_known d all ->
  c_stop (w_cfg w) = 0 -> w_stopping w = true ->
  (w_pc w = Finished -> q_list (u_q (w_u w)) = []) ->
  (w_pc w = Loop -> u_phase (w_u w) = Idle) ->
  (wmeasure w <= n)%nat ->
  let w' := wrun d h st p (repeat OTick n) w in
  w_pc w' = Finished /\ q_list (u_q (w_u w')) = [].
Proof.
  induction n; intros d h st p w all A K HS STP FQ PL M; cbv zeta.
  - cbn [repeat wrun]. unfold wmeasure in M. destruct (w_pc w) eqn:P; try lia. auto.
  - cbn [repeat wrun wstep]. destruct (w_pc w) eqn:P.
    4: { assert (E : tick d h st p w = w) by (unfold tick; rewrite P; reflexivity).
         rewrite E. apply (IHn d h st p w all); auto; try congruence.
         unfold wmeasure. rewrite P. lia. }
    all: destruct (stop_measure d h st p w all A K HS STP ltac:(congruence) ltac:(congruence)) as (M1 & M2 & M3);
      apply (IHn d h st p (tick d h st p w) all);
      [ apply tick_accounted; auto; congruence
      | auto | rewrite tick_cfg; auto | auto | auto
      | | cbv zeta in M1; lia ].
    all: unfold tick; rewrite P; try rewrite STP; unfold drain_step; cbv zeta; cbn [w_pc w_u set_pc set_u];
      destruct (u_phase (work d h st (w_cfg w) (w_u w))); cbn [is_idle]; congruence.
Qed.

(** The whole measurement: after enough worker turns the thread has ended with an empty queue, and
    every sample from the pre-trigger window on is in the data, in order. *)
Lemma measurement_stored : forall d h st p pre trim ops1 T ops2, dg_ok d ->
  Forall plain ops1 -> Forall plain ops2 ->
  Forall (sample_ok d) (wsaves ops1 ++ wsaves ops2) -> sorted_ts (wsaves ops1 ++ wsaves ops2) ->
  (forall s, In s (wsaves ops1 ++ wsaves ops2) -> s_ts s < 2 ^ 64) ->
  (forall s, In s (wsaves ops1) -> s_ts s <= T) ->
  0 < T -> T < 2 ^ 64 -> pre <= T ->
  exists n0, forall n, (n0 <= n)%nat ->
  let w := wrun d h st p (measurement ops1 T ops2 n) (winit pre trim) in
  w_pc w = Finished /\ q_list (u_q (w_u w)) = [] /\
  shuffle (u_log (w_u w)) (u_gone (w_u w)) (wsaves ops1 ++ wsaves ops2) /\
  (forall s, In s (u_gone (w_u w)) -> s_ts s + pre < T) /\
  emitted d h (u_log (w_u w)) (u_out (w_u w)) (u_enc (w_u w)).
Proof.
  intros d h st p pre trim ops1 T ops2 H P1 P2 F S B BT TP HT HP.
  set (w0 := wrun d h st p (measurement ops1 T ops2 0) (winit pre trim)).
  exists (wmeasure w0). intros n L w.
  destruct (measurement_alive d h st p pre trim ops1 T ops2 n H P1 P2 F S B BT TP HT HP) as [A C].
  destruct (measurement_alive d h st p pre trim ops1 T ops2 0 H P1 P2 F S B BT TP HT HP) as [A0 C0].
  cbv zeta in A, C, A0, C0. fold w in A, C. fold w0 in A0, C0.
  assert (E : w = wrun d h st p (repeat OTick n) w0).
  { unfold w, w0, measurement. cbn [repeat]. rewrite <- wrun_app. f_equal. rewrite <- app_assoc.
    cbn [app]. f_equal. f_equal. rewrite <- app_assoc. reflexivity. }
  assert (ST0 : w_stopping w0 = true).
  { unfold w0, measurement. rewrite wrun_app. cbn [wrun]. rewrite wrun_app. reflexivity. }
  assert (FQ0 : w_pc w0 = Finished -> False).
  { unfold w0, measurement. rewrite wrun_app. cbn [wrun]. rewrite wrun_app. cbn [wrun repeat wstep w_pc].
    assert (NF : forall ops x, Forall plain ops -> w_stopping x = false -> w_pc x = Loop \/ w_pc x = InSave ->
      w_pc (wrun d h st p ops x) <> Finished /\ w_stopping (wrun d h st p ops x) = false /\
      (w_pc (wrun d h st p ops x) = Loop \/ w_pc (wrun d h st p ops x) = InSave)).
    { induction ops as [|o r IH]; intros x PL SX PX; cbn [wrun].
      - split; [destruct PX as [X|X]; rewrite X; discriminate|]. auto.
      - apply Forall_cons_iff in PL as [PO PL]. apply IH; auto; destruct o; try destruct PO; cbn [wstep].
        + destruct (w_alive x); auto.
        + unfold tick. destruct PX as [X|X]; rewrite X; [rewrite SX; destruct (w_started x); [destruct p|]|]; auto.
        + destruct (w_alive x); auto.
        + unfold tick. destruct PX as [X|X]; rewrite X; [rewrite SX; destruct (w_started x); [destruct p|]|]; auto;
          unfold drain_step; cbv zeta; cbn [w_pc set_pc]; destruct (is_idle _); auto. }
    destruct (NF ops1 (winit pre trim) P1 eq_refl (or_introl eq_refl)) as (X1 & X2 & X3).
    match goal with |- w_pc (wrun _ _ _ _ _ ?y) = _ -> _ =>
      destruct (NF ops2 y P2) as (Y1 & Y2 & Y3); auto end. }
  destruct (stop_completes n d h st p w0 (wsaves ops1 ++ wsaves ops2) (ao_acc _ _ _ _ _ A0)) as [Q1 Q2]; auto.
  - apply known_all; auto.
  - apply (ao_stop _ _ _ _ _ A0).
  - intros X. destruct (FQ0 X).
  - intros X. apply (ao_phase _ _ _ _ _ A0). auto.
  - rewrite <- E in Q1, Q2.
    split; [auto|]. split; [auto|].
    destruct (ao_acc _ _ _ _ _ A) as (left & SH & EA).
    rewrite Q2, (ao_phase _ _ _ _ _ A (or_introl Q1)) in EA. cbn [held app] in EA. rewrite app_nil_r in EA.
    split; [rewrite EA; exact SH|]. split; [|apply (ao_emit _ _ _ _ _ A)].
    intros s Hs. pose proof (ao_gone _ _ _ _ _ A s Hs) as G. rewrite C in G. exact G.
Qed.
