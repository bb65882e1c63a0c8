(** The time master: a measurement with times is one whose samples had their times from the
    beginning. *)
From Verif Require Import Base BlockModel StreamModel StreamSpec QueueModel QueueSpec QueueProofs WriterModel WriterProofs
  MetaModel MeasModel ConvModel ChannelModel ChannelSpec ValueModel ValueSpec.
Local Open Scope N_scope.
Local Open Scope list_scope.

(* ------------------------------------------------------------------ *)
(** ** States that write the same *)

Definition same (u v : ust) : Prop :=
  q_list (u_q u) = q_list (u_q v) /\ u_phase u = u_phase v /\ u_out u = u_out v /\ u_enc u = u_enc v /\ u_log u = u_log v.
Definition same_w (w z : wst) : Prop :=
  same (w_u w) (w_u z) /\ w_started w = w_started z /\ w_pc w = w_pc z /\ w_cfg w = w_cfg z /\ w_stopping w = w_stopping z /\ w_alive w = w_alive z.

Lemma trim_same : forall st st' c q q', q_list q = q_list q' -> q_list (cfg_trim st c q) = q_list (cfg_trim st' c q').
Proof. intros st st' c q q' E. unfold cfg_trim. destruct (c_trim c); [|exact E]. rewrite !trim_queue_list, E. reflexivity. Qed.
Lemma loop_same : forall known stop n q q' g g', q_list q = q_list q' ->
  q_list (fst (fst (take_loop known stop n q g))) = q_list (fst (fst (take_loop known stop n q' g'))) /\
  snd (fst (take_loop known stop n q g)) = snd (fst (take_loop known stop n q' g')).
Proof.
  intros known stop. induction n as [|n IH]; intros q q' g g' E; cbn [take_loop]; [split; [exact E|reflexivity]|].
  unfold get_sample. rewrite <- E. destruct (q_list q) as [|s r] eqn:L; [split; [cbn; congruence|reflexivity]|].
  destruct ((0 <? stop) && (stop <? s_ts s)); [split; reflexivity|]. destruct (known s); [split; reflexivity|]. apply IH. reflexivity.
Qed.
Lemma take_same : forall d c u v, same u v -> same (take d c u) (take d c v).
Proof.
  intros d c u v (A & B & C & D & E). unfold take. rewrite <- A.
  destruct (loop_same (is_known d) (c_stop c) (length (q_list (u_q u))) (u_q u) (u_q v) (u_gone u) (u_gone v) A) as [X Y].
  destruct (take_loop _ _ _ (u_q u) _) as [[q p] g]. destruct (take_loop _ _ _ (u_q v) _) as [[q' p'] g']. cbn [fst snd] in X, Y.
  split; [exact X|]. split; [exact Y|]. split; [exact C|]. split; [exact D|exact E].
Qed.
Lemma work_same : forall d h st st' c u v, same u v -> same (work d h st c u) (work d h st' c v).
Proof.
  intros d h st st' c u v S. pose proof S as (A & B & C & D & E). unfold work. rewrite <- B. destruct (u_phase u) as [|s].
  - apply take_same. split; [apply trim_same; exact A|]. split; [reflexivity|]. split; [exact C|]. split; [exact D|exact E].
  - rewrite <- D. destruct (emit4 d h (u_enc u) s) as [[b e]|]; apply take_same; (split; [exact A|]); (split; [reflexivity|]); cbn [u_out u_enc u_log].
    + rewrite C, E. repeat split.
    + auto.
Qed.
Lemma drain_same : forall d h st st' a b w z, same_w w z -> same_w (drain_step d h st a b w) (drain_step d h st' a b z).
Proof.
  intros d h st st' a b w z (S & A & B & C & D & E). unfold drain_step. rewrite <- C.
  pose proof (work_same d h st st' (w_cfg w) _ _ S) as W. pose proof W as (_ & P & _).
  unfold same_w. cbn [set_pc set_u w_u w_started w_pc w_cfg w_stopping w_alive]. rewrite <- P. repeat (split; [assumption || reflexivity|]). exact E.
Qed.
Lemma trim_only_same : forall st st' c u v, same u v -> same (trim_only st c u) (trim_only st' c v).
Proof.
  intros st st' c u v (A & B & C & D & E). unfold trim_only. split; [cbn [u_q]; apply trim_same; exact A|]. auto.
Qed.
Lemma step_same : forall d h st st' p o w z, same_w w z -> same_w (wstep d h st p o w) (wstep d h st' p o z).
Proof.
  intros d h st st' p o w z SW. pose proof SW as (S & A & B & C & D & E). destruct o as [s| |t| |t]; cbn [wstep].
  - rewrite <- E. destruct (w_alive w) eqn:AL.
    + destruct S as (S1 & S2 & S3). repeat split; cbn [set_u w_u w_started w_pc w_cfg w_stopping w_alive save u_q add_sample q_list u_phase u_out u_enc u_log]; try congruence; apply S3.
    + repeat split; cbn [w_u w_started w_pc w_cfg w_stopping w_alive]; try congruence; apply S.
  - unfold tick. rewrite <- B, <- D, <- A. destruct (w_pc w) eqn:P; try (apply drain_same; exact SW); [|exact SW].
    destruct (w_stopping w) eqn:ST; [apply drain_same; exact SW|]. destruct (w_started w) eqn:SD.
    + destruct p; [apply drain_same; exact SW|exact SW].
    + unfold same_w. cbn [set_u w_u w_started w_pc w_cfg w_stopping w_alive]. rewrite <- C. split; [apply trim_only_same; exact S|].
      repeat split; congruence.
  - rewrite <- C. repeat split; cbn [w_u w_started w_pc w_cfg w_stopping w_alive]; auto; apply S.
  - repeat split; cbn [w_u w_started w_pc w_cfg w_stopping w_alive]; auto; apply S.
  - rewrite <- B. destruct (w_pc w) eqn:P; try exact SW. destruct S as (S1 & S2 & S3).
    repeat split; cbn [w_u w_started w_pc w_cfg w_stopping w_alive u_q q_list u_phase u_out u_enc u_log]; auto; try apply S3; congruence.
Qed.

(* ------------------------------------------------------------------ *)
(** ** Times after the start *)

Section Timed.
Context (at_T : N -> sample -> sample) (T : N).
Local Notation rt := (at_T T).
Context (rt_ts : forall s, s_ts (rt s) = s_ts s).

Definition rt_op (o : wop) : wop := match o with OSave s => OSave (rt s) | _ => o end.

(** Before the start the queue holds the samples without times; nothing is written. *)
Definition behind (w z : wst) : Prop :=
  q_list (u_q (w_u z)) = map rt (q_list (u_q (w_u w))) /\ u_phase (w_u w) = Idle /\ u_phase (w_u z) = Idle /\
  u_out (w_u w) = u_out (w_u z) /\ u_enc (w_u w) = u_enc (w_u z) /\ u_log (w_u w) = [] /\ u_log (w_u z) = [] /\
  w_started w = false /\ w_started z = false /\ w_pc w = Loop /\ w_pc z = Loop /\ w_cfg w = w_cfg z /\
  w_stopping w = false /\ w_stopping z = false /\ w_alive w = true /\ w_alive z = true.

Lemma last_map : forall l b, last (map rt l) (rt b) = rt (last l b).
Proof. induction l as [|a l IH]; intros b; [reflexivity|]. destruct l as [|c l]; [reflexivity|]. apply IH. Qed.
Lemma trim_map : forall start pre l, trim_list start pre (map rt l) = map rt (trim_list start pre l).
Proof.
  intros start pre. induction l as [|a l IH]; [reflexivity|]. destruct l as [|b r]; [reflexivity|].
  change (map rt (a :: b :: r)) with (rt a :: map rt (b :: r)). change (map rt (b :: r)) with (rt b :: map rt r) in *.
  cbn [trim_list]. change (rt b :: map rt r) with (map rt (b :: r)). rewrite last_map, !rt_ts.
  destruct (trim_done start pre (s_ts b) (s_ts (last (b :: r) b))); [reflexivity|]. exact IH.
Qed.
Lemma behind_step : forall d h st st' p o w z, plain o -> behind w z ->
  behind (tstep d h st p at_T o w) (wstep d h st' p (rt_op o) z).
Proof.
  intros d h st st' p o w z P (Q & A1 & A2 & B & C & D1 & D2 & E1 & E2 & F1 & F2 & G & H1 & H2 & I1 & I2).
  destruct o as [s| |t| |t]; try destruct P; cbn [tstep wstep rt_op].
  - rewrite E1, I1, I2. unfold behind. cbn [set_u w_u w_started w_pc w_cfg w_stopping w_alive save u_q add_sample q_list u_phase u_out u_enc u_log].
    rewrite Q, map_app. repeat split; auto.
  - unfold tick. rewrite F1, F2, H1, H2, E1, E2. unfold behind.
    cbn [set_u w_u w_started w_pc w_cfg w_stopping w_alive trim_only u_q u_phase u_out u_enc u_log].
    split; [|repeat split; auto]. rewrite <- G. unfold cfg_trim. destruct (c_trim (w_cfg w)); [|exact Q].
    rewrite !trim_queue_list, Q. apply trim_map.
Qed.
Lemma behind_run : forall d h st st' p ops w z, Forall plain ops -> behind w z ->
  behind (trun d h st p at_T ops w) (wrun d h st' p (map rt_op ops) z).
Proof.
  intros d h st st' p. induction ops as [|o ops IH]; intros w z F H; [exact H|]. inversion F; subst. cbn [trun wrun map].
  apply IH; auto. apply behind_step; auto.
Qed.
Lemma behind_start : forall d h st st' p w z, behind w z -> same_w (tstep d h st p at_T (OStart T) w) (wstep d h st' p (OStart T) z).
Proof.
  intros d h st st' p w z (Q & A1 & A2 & B & C & D1 & D2 & E1 & E2 & F1 & F2 & G & H1 & H2 & I1 & I2).
  unfold tstep, retime_queue. cbn [wstep]. unfold same_w, same. cbv zeta. cbn [set_u w_u w_started w_pc w_cfg w_stopping w_alive u_q q_list u_phase u_out u_enc u_log].
  rewrite Q, A1, A2, G, D1, D2. repeat split; try congruence.
Qed.

Definition running (w : wst) : Prop := w_started w = true /\ c_start (w_cfg w) = T.
Definition after_start (o : wop) : Prop := match o with OSave _ | OTick | OStop => True | _ => False end.
Lemma running_step : forall d h st p o w, after_start o -> running w -> running (tstep d h st p at_T o w).
Proof.
  intros d h st p o w P [R1 R2]. destruct o as [s| |t| |t]; try destruct P; cbn [tstep wstep].
  - destruct (w_alive w); split; assumption.
  - unfold tick. destruct (w_pc w); try (split; assumption). destruct (w_stopping w); [split; assumption|].
    rewrite R1. destruct p; split; assumption.
  - split; assumption.
Qed.
Lemma running_same : forall d h st st' p o w z, after_start o -> running w -> same_w w z ->
  same_w (tstep d h st p at_T o w) (wstep d h st' p (rt_op o) z).
Proof.
  intros d h st st' p o w z P [R1 R2] SW. destruct o as [s| |t| |t]; try destruct P; cbn [tstep rt_op]; try (apply step_same; exact SW).
  rewrite R1, R2. apply step_same. exact SW.
Qed.
Lemma running_run : forall d h st st' p ops w z, Forall after_start ops -> running w -> same_w w z ->
  same_w (trun d h st p at_T ops w) (wrun d h st' p (map rt_op ops) z).
Proof.
  intros d h st st' p. induction ops as [|o ops IH]; intros w z F R H; [exact H|]. inversion F; subst. cbn [trun wrun map].
  apply IH; auto; [apply running_step|apply running_same]; auto.
Qed.

Lemma trun_app : forall a b d h s p r w, trun d h s p r (a ++ b) w = trun d h s p r b (trun d h s p r a w).
Proof. induction a as [|x a IH]; intros; [reflexivity|]. cbn [app trun]. apply IH. Qed.

(** A measurement with times, and one of samples that had them from the beginning. *)
Lemma timed_same : forall d h st p pre trim ops1 ops2 n, Forall plain ops1 -> Forall plain ops2 ->
  same_w (trun d h st p at_T (measurement ops1 T ops2 n) (winit pre trim))
         (wrun d h st p (measurement (map rt_op ops1) T (map rt_op ops2) n) (winit pre trim)).
Proof.
  intros d h st p pre trim ops1 ops2 n F1 F2. unfold measurement. rewrite trun_app, wrun_app. cbn [trun wrun].
  assert (B : behind (trun d h st p at_T ops1 (winit pre trim)) (wrun d h st p (map rt_op ops1) (winit pre trim))).
  { apply behind_run; auto. unfold behind. cbn. repeat split. }
  assert (E : map rt_op ops2 ++ OStop :: repeat OTick n = map rt_op (ops2 ++ OStop :: repeat OTick n)).
  { rewrite map_app. cbn [map rt_op]. f_equal. f_equal. induction n as [|n IH]; [reflexivity|]. cbn [repeat map rt_op]. rewrite <- IH. reflexivity. }
  rewrite E. apply running_run.
  - apply Forall_app. split.
    + eapply Forall_impl; [|exact F2]. intros [s| |t| |t] P; cbn in *; auto.
    + constructor; [exact Logic.I|]. apply Forall_forall. intros o I. apply repeat_spec in I. subst. exact Logic.I.
  - cbn [tstep wstep]. split; reflexivity.
  - apply behind_start. exact B.
Qed.
Lemma rt_saves : forall ops, wsaves (map rt_op ops) = map rt (wsaves ops).
Proof. induction ops as [|[s| |t| |t] ops IH]; cbn [map rt_op wsaves]; rewrite ?IH; reflexivity. Qed.
Lemma rt_plain : forall ops, Forall plain ops -> Forall plain (map rt_op ops).
Proof. induction 1 as [|o ops P F IH]; cbn [map]; constructor; auto. destruct o; exact P. Qed.
End Timed.
