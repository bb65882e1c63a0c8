(** Proofs about the comments of channels, sources, events and units, part 4: whole comments. *)
From Coq Require Import String Permutation Sorting.Sorted Lia.
From Verif Require Import Base BlockModel BlockProofs TextSpec XmlModel XmlSpec XmlProofs XmlProofs2 XmlProofs3 XmlProofs4 XmlProofs5
  CommentModel CommentSpec CommentProofs CommentProofs2 CommentProofs3 CommentProofs4 CommentProofs5 NoteModel NoteSpec NoteProofs NoteProofs2 NoteProofs3.
Local Open Scope N_scope.
Local Open Scope list_scope.

Ltac plain_tag :=
  match goal with
  | |- name_ok _ => apply name_lit; reflexivity
  | |- ~ In _ _ => apply colon_lit; reflexivity
  | |- _ <> _ => vm_compute; discriminate
  | |- _ = _ => reflexivity
  | |- _ => assumption
  end.
(** The tests of the name of a tag. *)
Ltac tags T k :=
  rewrite !(fun u => tag_test u k _ T ltac:(apply colon_lit; reflexivity));
  repeat match goal with |- context [ieq (lit ?a) (lit ?b)] => let v := eval vm_compute in (ieq (lit a) (lit b)) in change (ieq (lit a) (lit b)) with v end;
  cbv iota.

Definition kind (s : string) (k : xnode) : Prop := x_tag k = lit s.
Lemma skip_fold : forall {A} (step : option A -> xnode -> option A) (P : xnode -> Prop), (forall c k, P k -> step (Some c) k = Some c) ->
  forall ks, Forall P ks -> forall c, fold_left step ks (Some c) = Some c.
Proof. intros A step P ST. induction ks as [|k ks IH]; intros F c; [reflexivity|]. inversion F; subst. cbn [fold_left]. rewrite ST; auto. Qed.

Section Order.
Context (order : list (list N * list N) -> list (list N * list N)) (OR : any_order order).

(** ** The parts of a comment *)
Lemma tx_part : forall t k, same (str_node (lit "TX") t) k -> x_tag k = lit "TX".
Proof. intros t k S. rewrite <- (same_tag _ _ S). reflexivity. Qed.
Lemma w_tx_part : forall t k, str_ok t -> same (str_node (lit "TX") t) k -> exists t', kept_str t t' /\
  forall l a f, w_step order (Some (mkW (mkC mstr0 l) a f)) k = Some (mkW (mkC t' l) a f).
Proof.
  intros t k OK S. exists (from_str order k mstr0). split; [eapply str_read; eauto|]. intros. unfold w_step. cbn [obind].
  pose proof (tx_part _ _ S) as T. tags T k. reflexivity.
Qed.
Lemma w_names_part : forall a ks, altn_ok a -> Forall2 same (to_names (lit "names") a) ks -> exists a', kept_altn a a' /\ Forall (kind "names") ks /\
  forall m f, fold_left (w_step order) ks (Some (mkW m altn0 f)) = Some (mkW m a' f).
Proof.
  intros a ks OK S. destruct (names_case order OR (lit "names") a ks) as [(-> & K)|(k & a' & -> & T & F & K)]; auto; [plain_tag| |].
  - exists altn0. auto.
  - exists a'. split; [exact K|]. split; [constructor; [exact T|constructor]|]. intros. cbn [fold_left w_step obind]. tags T k. cbn [w_names w_md w_form]. rewrite F. reflexivity.
Qed.
Lemma w_form_part : forall f ks, formula_ok f -> Forall2 same (to_formula f) ks -> exists f', kept_formula f f' /\ Forall (kind "formula") ks /\
  forall m a, fold_left (w_step order) ks (Some (mkW m a form0)) = Some (mkW m a f').
Proof.
  intros f ks OK S. destruct (form_case order OR f ks) as [(-> & K)|(k & f' & -> & T & F & K)]; auto.
  - exists form0. auto.
  - exists f'. split; [exact K|]. split; [constructor; [exact T|constructor]|]. intros. cbn [fold_left w_step obind]. tags T k. cbn [w_names w_md w_form]. rewrite F. reflexivity.
Qed.
Lemma w_common_part : forall c ks, comment_ok c -> Forall2 same (to_common c) ks -> exists l', kept_list (c_common c) l' /\ Forall (kind "common_properties") ks /\
  forall t a f, fold_left (w_step order) ks (Some (mkW (mkC t mlist0) a f)) = Some (mkW (mkC t l') a f).
Proof.
  intros c ks OK S. pose proof (common_kinds _ _ S) as CK. destruct OK as (_ & LO & SE & NE & DE). unfold to_common in S. destruct (l_active (c_common c)) eqn:A.
  - inversion S as [|? k ? r S1 S2]; subst. inversion S2; subst. inversion CK as [|? ? T _]; subst.
    destruct (common_read order OR (c_common c) k LO SE NE DE S1) as (l' & F & K). exists l'. split; [exact K|]. split; [exact CK|]. intros. cbn [fold_left w_step obind]. tags T k.
    cbn [w_names w_md w_form c_common c_tx]. rewrite F. reflexivity.
  - inversion S; subst. exists mlist0. split; [|auto]. rewrite (inactive _ LO SE NE DE A).
    apply (kept_level std0 std0 [] []); try constructor; auto; try reflexivity; apply kept_std0.
Qed.

(** ** Comments without own parts *)
Lemma w_kids_read : forall c ks rest, wcom_ok c -> Forall2 same (w_kids c) ks -> (forall w, fold_left (w_step order) rest (Some w) = Some w) ->
  exists c', fold_left (w_step order) (ks ++ rest) (Some wcom0) = Some c' /\ kept_wcom c c'.
Proof.
  intros c ks rest (MO & AO & FO) S RE. unfold w_kids, w_tx in S. rewrite to_tx in S by apply MO. cbn [app] in S.
  destruct ks as [|k1 kr]; [inversion S|]. apply f2_cons in S. destruct S as (S1 & S).
  apply Forall2_app_inv_l in S. destruct S as (k2 & kr2 & S2 & S & ->).
  apply Forall2_app_inv_l in S. destruct S as (k3 & k4 & S3 & S4 & ->).
  destruct (w_tx_part _ _ (proj1 MO) S1) as (t' & K1 & R1). destruct (w_names_part _ _ AO S2) as (a' & K2 & _ & R2).
  destruct (w_form_part _ _ FO S3) as (f' & K3 & _ & R3). destruct (w_common_part _ _ MO S4) as (l' & K4 & _ & R4).
  cbn [app fold_left]. unfold wcom0, comment0. rewrite R1, !fold_left_app, R2, R3, R4, RE. eexists. split; [reflexivity|]. split; [split; auto|]. auto.
Qed.
Lemma w_ok : forall c, wcom_ok c -> Forall node_ok (w_kids c).
Proof.
  intros c (MO & AO & FO). unfold w_kids, w_tx. rewrite to_tx by apply MO. rewrite !Forall_app. repeat split.
  - constructor; [|constructor]. apply str_node_ok; [plain_tag|apply MO].
  - apply names_ok_nodes; [plain_tag|auto].
  - apply form_ok. auto.
  - apply common_ok. auto.
Qed.
Lemma wcom_back : forall block c s, name_ok (block ++ lit "comment") -> wcom_ok c -> text_of order (to_wcom block c) s ->
  exists c', from_text (from_wcom order) describe_w s wcom0 = Some c' /\ kept_wcom c c'.
Proof.
  intros block c s NB OK TX. unfold to_wcom in TX.
  destruct (from_text_node (from_wcom order) describe_w order _ s wcom0 OR (root_ok block _ NB (w_ok c OK)) TX) as (n' & E & S). rewrite E.
  apply same_root in S; auto. unfold from_wcom. destruct (w_kids_read c (x_kids n') [] OK S) as (c' & F & K); [reflexivity|].
  rewrite app_nil_r in F. eauto.
Qed.

(** ** Units *)
Lemma unit_own : forall t, line_ok t -> own_ok unit_keys (text_attr "unit_ref" t).
Proof. intros t LT. split; [unfold text_attr; destruct t; apply apart_ok; reflexivity|known]. Qed.
Lemma unit_vocab : vocab unit_keys.
Proof. repeat constructor. Qed.
Lemma unit_written : forall t c r, t_text t = c :: r -> std_ok unit_keys (text_attr "unit_ref" (t_text t)) (t_std t) ->
  agrees (text_attr "unit_ref" (t_text t)) (t_std t) -> line_ok (t_text t) -> exists a,
  Permutation a (std_attrs (text_attr "unit_ref" (t_text t)) (t_std t)) /\
  set_attr (lit "unit_ref") (c :: r) (put_std (t_std t) (new_node (lit "ho_unit"))) = XNode (lit "ho_unit") a [] [].
Proof.
  intros t c r E SO AG LT. exists (fold_left add_attr (text_attr "unit_ref" (t_text t)) (std_attrs [] (t_std t))).
  split; [apply (late unit_keys); auto; apply unit_own; auto|]. rewrite E. rewrite new_node_shape by plain_tag.
  pose proof (std_written [] [] (t_std t) (XNode (lit "ho_unit") [] [] []) (std_bare _ _ _ SO) (own_nil _) eq_refl) as W.
  destruct (put_std_shape (t_std t) (XNode (lit "ho_unit") [] [] [])) as (A & B & C & _).
  destruct (put_std _ _) as [tg at_ vl ks]. cbn [x_tag x_attrs x_value x_kids] in *. subst. reflexivity.
Qed.
Lemma trim_twice : forall s, trim (trim s) = trim s.
Proof.
  intros s. destruct (trim_spec s) as (_ & _ & _ & _ & _ & [->|(H1 & H2)]); [reflexivity|]. destruct (trim s) as [|c r]; [reflexivity|].
  unfold trim, rtrim. rewrite (ltrim_id (c :: r)) by auto. rewrite (ltrim_id (rev (c :: r))).
  - apply rev_involutive.
  - left. rewrite hd_rev. auto.
Qed.
Lemma unit_back : forall block c s, name_ok (block ++ lit "unit") -> unit_ok c -> text_of order (to_unit block c) s ->
  exists c', from_text (from_unit order) describe_unit s unitc0 = Some c' /\ kept_unit c c'.
Proof.
  intros block c s NB (WO & SO & AG & LT) TX. unfold to_unit in TX. rewrite (new_node_shape (block ++ lit "unit")) in TX by exact NB. unfold set_kids in TX. cbn [x_tag x_attrs x_value] in TX.
  set (us := match t_text (u_ref c) with [] => [] | _ => _ end) in TX.
  assert (U : us = [] /\ t_text (u_ref c) = [] \/ t_text (u_ref c) <> [] /\ exists a, Permutation a (std_attrs (text_attr "unit_ref" (t_text (u_ref c))) (t_std (u_ref c))) /\
    us = [XNode (lit "ho_unit") a [] []]).
  { subst us. destruct (t_text (u_ref c)) as [|h r] eqn:E; [left; auto|]. right. split; [discriminate|]. rewrite <- E in SO, AG, LT.
    destruct (unit_written (u_ref c) h r E SO AG LT) as (a & P & W). exists a. rewrite E in P. rewrite W. auto. }
  clearbody us. pose proof (unit_own _ LT) as OW. pose proof unit_vocab as VO.
  assert (NO : node_ok (XNode (block ++ lit "unit") [] [] (w_kids (u_w c) ++ us))).
  { apply plain_ok; auto. apply Forall_app. split; [apply w_ok; auto|]. destruct U as [(-> & _)|(_ & a & P & ->)]; [constructor|]. constructor; [|constructor].
    eapply perm_ok; [|exact P]. apply (owned_ok unit_keys); auto; [plain_tag|apply text_nil]. }
  destruct (from_text_node (from_unit order) describe_unit order _ s unitc0 OR NO TX) as (n' & E & S). rewrite E. clear E TX NO.
  apply same_kids in S. cbn [x_kids] in S. apply Forall2_app_inv_l in S. destruct S as (kw & ku & SW & SU & EK).
  unfold from_unit. rewrite EK.
  assert (SK : forall u0, fold_left (unit_step order) kw (Some u0) = Some u0).
  { pose proof SW as SW'. unfold w_kids, w_tx in SW'. rewrite to_tx in SW' by apply (proj1 WO). cbn [app] in SW'.
    destruct kw as [|k1 kr]; [inversion SW'|]. apply f2_cons in SW'. destruct SW' as (S1 & S').
    apply Forall2_app_inv_l in S'. destruct S' as (k2 & kr2 & S2 & S' & ->).
    apply Forall2_app_inv_l in S'. destruct S' as (k3 & k4 & S3 & S4 & ->).
    destruct WO as (MO & AO & FO).
    destruct (w_names_part _ _ AO S2) as (_ & _ & T2 & _). destruct (w_form_part _ _ FO S3) as (_ & _ & T3 & _). destruct (w_common_part _ _ MO S4) as (_ & _ & T4 & _).
    intros u0. apply (skip_fold (unit_step order) (fun k => kind "TX" k \/ kind "names" k \/ kind "formula" k \/ kind "common_properties" k)).
    - intros x k [T|[T|[T|T]]]; unfold kind in T; unfold unit_step; cbn [obind]; tags T k; reflexivity.
    - constructor; [left; eapply tx_part; eauto|]. rewrite !Forall_app. repeat split; eapply Forall_impl; try eassumption; intros; cbv beta; auto. }
  destruct U as [(-> & UE)|(UN & a & P & ->)].
  - inversion SU; subst. rewrite app_nil_r, SK. cbn [obind].
    destruct (w_kids_read (u_w c) kw [] WO SW) as (w' & F & K); [reflexivity|]. rewrite app_nil_r in F. unfold from_wcom. rewrite EK, app_nil_r.
    change (u_w unitc0) with wcom0. rewrite F. cbn [obind]. eexists. split; [reflexivity|]. split; [exact K|]. rewrite UE. reflexivity.
  - inversion SU as [|? k ? r S1 S2]; subst. inversion S2; subst. rewrite fold_left_app, SK. cbn [fold_left]. unfold unit_step at 1. cbn [obind].
    pose proof (same_tag _ _ S1) as T. cbn [x_tag] in T. symmetry in T. tags T k. apply (same_perm _ _ _ _ _ _ S1) in P.
    destruct (std_read order OR unit_keys _ _ _ k SO OW P eq_refl) as (s' & FS & KS). change (t_std (u_ref unitc0)) with std0. rewrite FS. cbn [obind u_w u_ref].
    rewrite (text_read order OR unit_keys _ _ (lit "unit_ref") _ _ _ k SO OW VO (or_introl eq_refl) P). rewrite found_text, trim_twice.
    destruct (w_kids_read (u_w c) kw [k] WO SW) as (w' & F & K).
    { intros w. cbn [fold_left]. unfold w_step. cbn [obind]. tags T k. reflexivity. }
    unfold from_wcom. rewrite EK. change (u_w unitc0) with wcom0. rewrite F. cbn [obind u_w u_ref]. eexists. split; [reflexivity|]. split; [exact K|].
    cbn [u_ref]. rewrite (value_same _ _ P). unfold vtext. cbn [x_kids x_value]. change (trim (trim [])) with (@nil N).
    destruct (t_text (u_ref c)) as [|h r] eqn:ET; [contradiction|]. cbn [t_std t_text]. split; [exact KS|]. destruct (trim (h :: r)); reflexivity.
Qed.

(** ** Sources *)
Lemma si_back : forall c s, si_ok c -> text_of order (to_si c) s ->
  exists c', from_text (from_si order) describe_si s sicom0 = Some c' /\ kept_si c c'.
Proof.
  intros c s ((MO & AO & FO) & PO & BO & TO) TX. assert (NB : name_ok (lit "SI" ++ lit "comment")) by (apply name_okb_ok; reflexivity).
  unfold to_si, w_tx in TX. rewrite to_tx in TX by apply MO. rewrite (to_str_opt (lit "protocol")) in TX by plain_tag.
  set (kids := [str_node _ _] ++ _) in TX.
  assert (NO : node_ok (root (lit "SI") kids)).
  { apply root_ok; auto. unfold kids. rewrite !Forall_app. repeat split; try (apply names_ok_nodes; plain_tag); [|apply opt_ok; plain_tag|apply common_ok; auto].
    constructor; [|constructor]. apply str_node_ok; [plain_tag|apply MO]. }
  destruct (from_text_node (from_si order) describe_si order _ s sicom0 OR NO TX) as (n' & E & S). rewrite E. clear E TX NO.
  apply same_root in S; auto. unfold kids in S. cbn [app] in S. destruct (x_kids n') as [|k1 kr] eqn:EK; [inversion S|].
  apply f2_cons in S. destruct S as (S1 & SR).
  apply Forall2_app_inv_l in SR. destruct SR as (k2 & kr2 & S2 & SR & ->).
  apply Forall2_app_inv_l in SR. destruct SR as (k3 & kr3 & S3 & SR & ->).
  apply Forall2_app_inv_l in SR. destruct SR as (k4 & kr4 & S4 & SR & ->).
  apply Forall2_app_inv_l in SR. destruct SR as (k5 & k6 & S5 & S6 & ->).
  destruct (w_tx_part _ _ (proj1 MO) S1) as (t' & K1 & R1). pose proof (tx_part _ _ S1) as T1. destruct (w_names_part _ _ AO S2) as (a' & K2 & T2 & R2).
  destruct (w_common_part _ _ MO S6) as (l' & K6 & T6 & R6).
  assert (P3 : exists a, kept_altn (si_path c) a /\ Forall (kind "path") k3 /\ forall w b t, fold_left (si_step order) k3 (Some (mkSi w altn0 b t)) = Some (mkSi w a b t)).
  { destruct (names_case order OR (lit "path") (si_path c) k3) as [(-> & K)|(k & a & -> & T & F & K)]; auto; [plain_tag|exists altn0; auto|].
    exists a. split; [exact K|]. split; [constructor; [exact T|constructor]|]. intros. cbn [fold_left si_step obind]. tags T k. rewrite F. reflexivity. }
  assert (P4 : exists a, kept_altn (si_bus c) a /\ Forall (kind "bus") k4 /\ forall w b t, fold_left (si_step order) k4 (Some (mkSi w b altn0 t)) = Some (mkSi w b a t)).
  { destruct (names_case order OR (lit "bus") (si_bus c) k4) as [(-> & K)|(k & a & -> & T & F & K)]; auto; [plain_tag|exists altn0; auto|].
    exists a. split; [exact K|]. split; [constructor; [exact T|constructor]|]. intros. cbn [fold_left si_step obind]. tags T k. rewrite F. reflexivity. }
  assert (P5 : exists t, kept_opt (si_protocol c) t /\ Forall (kind "protocol") k5 /\ forall w a b, fold_left (si_step order) k5 (Some (mkSi w a b mstr0)) = Some (mkSi w a b t)).
  { destruct (opt_case order OR _ _ _ TO S5) as [(-> & K)|(k & -> & SS & K)]; [exists mstr0; auto|].
    assert (T : x_tag k = lit "protocol") by (rewrite <- (same_tag _ _ SS); reflexivity).
    exists (from_str order k mstr0). split; [exact K|]. split; [constructor; [exact T|constructor]|]. intros. cbn [fold_left si_step obind]. tags T k. reflexivity. }
  destruct P3 as (a3 & K3 & T3 & R3). destruct P4 as (a4 & K4 & T4 & R4). destruct P5 as (t5 & K5 & T5 & R5).
  unfold from_si. rewrite EK. cbn [fold_left]. rewrite !fold_left_app. unfold sicom0.
  assert (Q1 : forall x, si_step order (Some x) k1 = Some x) by (intros []; unfold si_step; cbn [obind]; tags T1 k1; reflexivity).
  assert (SI : forall ks, Forall (fun k => kind "names" k \/ kind "common_properties" k) ks -> forall x, fold_left (si_step order) ks (Some x) = Some x).
  { apply skip_fold. intros [] k [T|T]; unfold kind in T; unfold si_step; cbn [obind]; tags T k; reflexivity. }
  rewrite Q1, (SI k2) by (eapply Forall_impl; [|exact T2]; intros; cbv beta; auto).
  rewrite R3, R4, R5, (SI k6) by (eapply Forall_impl; [|exact T6]; intros; cbv beta; auto). cbn [obind si_w si_path si_bus si_protocol].
  unfold from_wcom. rewrite EK. cbn [fold_left]. rewrite !fold_left_app. unfold wcom0, comment0. rewrite R1, R2.
  assert (WK : forall ks, Forall (fun k => kind "path" k \/ kind "bus" k \/ kind "protocol" k) ks -> forall x, fold_left (w_step order) ks (Some x) = Some x).
  { apply skip_fold. intros x k [T|[T|T]]; unfold kind in T; unfold w_step; cbn [obind]; tags T k; reflexivity. }
  rewrite (WK k3), (WK k4), (WK k5), R6 by (eapply Forall_impl; [|eassumption]; intros; cbv beta; auto). cbn [obind].
  eexists. split; [reflexivity|]. unfold kept_si. cbn [si_w w_md w_names si_path si_bus si_protocol]. split; [split; auto|]. auto.
Qed.

End Order.

Section Doubles.
Context (print : N -> list N) (scan : list N -> option N).
Section Order.
Context (order : list (list N * list N) -> list (list N * list N)) (OR : any_order order).

(** ** Events *)
Ltac numbers CASE := destruct CASE as [(-> & K)|(k & q' & -> & T & F & K)];
  [ |exists q'; split; [exact K|]; split; [constructor; [exact T|constructor]|]; intros; cbn [fold_left ev_step cn_step obind]; tags T k; rewrite F; reflexivity].
Lemma ev_back : forall c s, ev_ok print c -> text_of order (to_ev print c) s ->
  exists c', from_text (from_ev scan order) describe_ev s evcom0 = Some c' /\ kept_ev print scan c c'.
Proof.
  intros c s ((MO & AO & FO) & O1 & O2 & O3) TX. assert (NB : name_ok (lit "EV" ++ lit "comment")) by (apply name_okb_ok; reflexivity).
  unfold to_ev, w_tx in TX. rewrite to_tx in TX by apply MO. set (kids := [str_node _ _] ++ _) in TX.
  assert (NO : node_ok (root (lit "EV") kids)).
  { apply root_ok; auto. unfold kids. rewrite !Forall_app. repeat split; try (apply num_nodes_ok; plain_tag); [|apply form_ok; auto|apply common_ok; auto].
    constructor; [|constructor]. apply str_node_ok; [plain_tag|apply MO]. }
  destruct (from_text_node (from_ev scan order) describe_ev order _ s evcom0 OR NO TX) as (n' & E & S). rewrite E. clear E TX NO.
  apply same_root in S; auto. unfold kids in S. cbn [app] in S. destruct (x_kids n') as [|k1 kr] eqn:EK; [inversion S|].
  apply f2_cons in S. destruct S as (S1 & SR).
  apply Forall2_app_inv_l in SR. destruct SR as (k2 & kr2 & S2 & SR & ->).
  apply Forall2_app_inv_l in SR. destruct SR as (k3 & kr3 & S3 & SR & ->).
  apply Forall2_app_inv_l in SR. destruct SR as (k4 & kr4 & S4 & SR & ->).
  apply Forall2_app_inv_l in SR. destruct SR as (k5 & k6 & S5 & S6 & ->).
  destruct (w_tx_part order OR _ _ (proj1 MO) S1) as (t' & K1 & R1). pose proof (tx_part _ _ S1) as T1.
  destruct (w_form_part order OR _ _ FO S4) as (f' & K4 & T4 & R4). destruct (w_common_part order OR _ _ MO S6) as (l' & K6 & T6 & R6).
  assert (P2 : exists q, kept_opt_num print scan 3 (ev_pre c) q /\ Forall (kind "pre_trigger_interval") k2 /\
    forall w b t, fold_left (ev_step scan order) k2 (Some (mkEv w (num0 3) b t)) = Some (mkEv w q b t)).
  { numbers (num_case print scan order OR (lit "pre_trigger_interval") 3 (ev_pre c) k2 ltac:(plain_tag) O1 S2). exists (num0 3). auto. }
  assert (P3 : exists q, kept_opt_num print scan 3 (ev_post c) q /\ Forall (kind "post_trigger_interval") k3 /\
    forall w b t, fold_left (ev_step scan order) k3 (Some (mkEv w b (num0 3) t)) = Some (mkEv w b q t)).
  { numbers (num_case print scan order OR (lit "post_trigger_interval") 3 (ev_post c) k3 ltac:(plain_tag) O2 S3). exists (num0 3). auto. }
  assert (P5 : exists q, kept_opt_num print scan 3 (ev_timeout c) q /\ Forall (kind "timeout") k5 /\
    forall w b t, fold_left (ev_step scan order) k5 (Some (mkEv w b t (num0 3))) = Some (mkEv w b t q)).
  { numbers (num_case print scan order OR (lit "timeout") 3 (ev_timeout c) k5 ltac:(plain_tag) O3 S5). exists (num0 3). auto. }
  destruct P2 as (q2 & K2 & T2 & R2). destruct P3 as (q3 & K3 & T3 & R3). destruct P5 as (q5 & K5 & T5 & R5).
  unfold from_ev, from_wcom. rewrite EK. cbn [fold_left]. rewrite !fold_left_app. unfold evcom0, wcom0, comment0. cbn [ev_w ev_pre ev_post ev_timeout]. rewrite R1.
  assert (WK : forall ks, Forall (fun k => kind "pre_trigger_interval" k \/ kind "post_trigger_interval" k \/ kind "timeout" k) ks -> forall x, fold_left (w_step order) ks (Some x) = Some x).
  { apply skip_fold. intros x k [T|[T|T]]; unfold kind in T; unfold w_step; cbn [obind]; tags T k; reflexivity. }
  rewrite (WK k2), (WK k3), R4, (WK k5), R6 by (eapply Forall_impl; [|eassumption]; intros; cbv beta; auto). cbn [obind].
  assert (Q1 : forall x, ev_step scan order (Some x) k1 = Some x) by (intros []; unfold ev_step; cbn [obind]; tags T1 k1; reflexivity).
  assert (EI : forall ks, Forall (fun k => kind "formula" k \/ kind "common_properties" k) ks -> forall x, fold_left (ev_step scan order) ks (Some x) = Some x).
  { apply skip_fold. intros [] k [T|T]; unfold kind in T; unfold ev_step; cbn [obind]; tags T k; reflexivity. }
  cbn [fold_left]; rewrite Q1, ?fold_left_app, R2, R3, (EI k4), R5, (EI k6) by (eapply Forall_impl; [|eassumption]; intros; cbv beta; auto).
  eexists. split; [reflexivity|]. unfold kept_ev. cbn [ev_w w_md w_form ev_pre ev_post ev_timeout]. split; [split; auto|]. auto.
Qed.

(** ** Channels *)
Definition mono_nodes (m : option N) : list xnode := match m with Some m => [XNode (lit "axis_monotony") [] (mono_text m) []] | None => [] end.
Lemma mono_cases : forall m, m <= 6 -> m = 0 \/ m = 1 \/ m = 2 \/ m = 3 \/ m = 4 \/ m = 5 \/ m = 6.
Proof. intros. lia. Qed.
Lemma mono_back : forall m, m <= 6 -> exists c r, trim (mono_text m) = c :: r /\ mono_from 0 mono_texts (c :: r) = m.
Proof.
  intros m LE. destruct (mono_cases m LE) as [->|[->|[->|[->|[->|[->| ->]]]]]]; eexists; eexists; (split; [vm_compute; reflexivity|vm_compute; reflexivity]).
Qed.
Lemma mono_ok : forall m, (forall x, m = Some x -> x <= 6) -> Forall node_ok (mono_nodes m).
Proof.
  intros [m|] H; [|constructor]. specialize (H m eq_refl). constructor; [|constructor]. constructor; [plain_tag|constructor|constructor| |constructor].
  assert (L : line_ok (mono_text m)).
  { destruct (mono_cases m H) as [->|[->|[->|[->|[->|[->| ->]]]]]]; apply line_lit; reflexivity. }
  destruct L as (cps & F & E). exists cps. split; [|exact E]. eapply Forall_impl; [|exact F]. cbv beta. tauto.
Qed.
Lemma cn_back : forall c s, cn_ok print c -> text_of order (to_cn print c) s ->
  exists c', from_text (from_cn scan order) describe_cn s cncom0 = Some c' /\ kept_cn print scan c c'.
Proof.
  intros c s ((MO & AO & FO) & LO & O1 & O2 & O3 & OM) TX. assert (NB : name_ok (lit "CN" ++ lit "comment")) by (apply name_okb_ok; reflexivity).
  unfold to_cn, w_tx in TX. rewrite to_tx in TX by apply MO.
  assert (ME : match cn_mono c with Some m => [set_value (mono_text m) (new_node (lit "axis_monotony"))] | None => [] end = mono_nodes (cn_mono c)).
  { destruct (cn_mono c); [|reflexivity]. rewrite new_node_shape by plain_tag. reflexivity. }
  rewrite ME in TX. set (kids := [str_node _ _] ++ _) in TX.
  assert (NO : node_ok (root (lit "CN") kids)).
  { apply root_ok; auto. unfold kids. rewrite !Forall_app.
    repeat split; try (apply num_nodes_ok; plain_tag); [|apply names_ok_nodes; plain_tag|apply link_ok, LO|apply mono_ok; auto|apply form_ok; auto|apply common_ok; auto].
    constructor; [|constructor]. apply str_node_ok; [plain_tag|apply MO]. }
  destruct (from_text_node (from_cn scan order) describe_cn order _ s cncom0 OR NO TX) as (n' & E & S). rewrite E. clear E TX NO ME.
  apply same_root in S; auto. unfold kids in S. cbn [app] in S. destruct (x_kids n') as [|k1 kr] eqn:EK; [inversion S|].
  apply f2_cons in S. destruct S as (S1 & SR).
  apply Forall2_app_inv_l in SR. destruct SR as (k2 & kr2 & S2 & SR & ->).
  apply Forall2_app_inv_l in SR. destruct SR as (k3 & kr3 & S3 & SR & ->).
  apply Forall2_app_inv_l in SR. destruct SR as (k4 & kr4 & S4 & SR & ->).
  apply Forall2_app_inv_l in SR. destruct SR as (k5 & kr5 & S5 & SR & ->).
  apply Forall2_app_inv_l in SR. destruct SR as (k6 & kr6 & S6 & SR & ->).
  apply Forall2_app_inv_l in SR. destruct SR as (k7 & kr7 & S7 & SR & ->).
  apply Forall2_app_inv_l in SR. destruct SR as (k8 & k9 & S8 & S9 & ->).
  destruct (w_tx_part order OR _ _ (proj1 MO) S1) as (t' & K1 & R1). pose proof (tx_part _ _ S1) as T1.
  destruct (w_names_part order OR _ _ AO S2) as (a' & K2 & T2 & R2).
  destruct (w_form_part order OR _ _ FO S7) as (f' & K7 & T7 & R7). destruct (w_common_part order OR _ _ MO S9) as (l' & K9 & T9 & R9).
  assert (P3 : exists t, kept_linker (cn_linker c) t /\ Forall (kind "linker_name") k3 /\
    forall w la mo ra ad, fold_left (cn_step scan order) k3 (Some (mkCn w mstr0 la mo ra ad)) = Some (mkCn w t la mo ra ad)).
  { destruct (link_case order OR _ _ LO S3) as [(-> & K)|(k & -> & T & K)]; [exists mstr0; auto|]. exists (from_str order k mstr0). split; [exact K|].
    split; [constructor; [exact T|constructor]|]. intros. cbn [fold_left cn_step obind]. tags T k. reflexivity. }
  assert (P4 : exists q, kept_opt_num print scan 8 (cn_laddr c) q /\ Forall (kind "linker_address") k4 /\
    forall w ln mo ra ad, fold_left (cn_step scan order) k4 (Some (mkCn w ln (num0 8) mo ra ad)) = Some (mkCn w ln q mo ra ad)).
  { numbers (num_case print scan order OR (lit "linker_address") 8 (cn_laddr c) k4 ltac:(plain_tag) O1 S4). exists (num0 8). auto. }
  assert (P5 : Forall (kind "axis_monotony") k5 /\
    forall w ln la ra ad, fold_left (cn_step scan order) k5 (Some (mkCn w ln la None ra ad)) = Some (mkCn w ln la (cn_mono c) ra ad)).
  { destruct (cn_mono c) as [m|] eqn:EM; cbn [mono_nodes] in S5; [|inversion S5; subst; auto]. inversion S5 as [|? k ? r SS1 SS2]; subst. inversion SS2; subst.
    assert (T : x_tag k = lit "axis_monotony") by (rewrite <- (same_tag _ _ SS1); reflexivity). split; [constructor; [exact T|constructor]|].
    intros. cbn [fold_left cn_step obind]. tags T k. rewrite (value_same _ _ SS1). unfold vtext. cbn [x_kids x_value].
    destruct (mono_back m (OM m eq_refl)) as (ch & r & -> & ->). reflexivity. }
  assert (P6 : exists q, kept_opt_num print scan 1 (cn_raster c) q /\ Forall (kind "raster") k6 /\
    forall w ln la mo ad, fold_left (cn_step scan order) k6 (Some (mkCn w ln la mo (num0 1) ad)) = Some (mkCn w ln la mo q ad)).
  { numbers (num_case print scan order OR (lit "raster") 1 (cn_raster c) k6 ltac:(plain_tag) O2 S6). exists (num0 1). auto. }
  assert (P8 : exists q, kept_opt_num print scan 8 (cn_addr c) q /\ Forall (kind "address") k8 /\
    forall w ln la mo ra, fold_left (cn_step scan order) k8 (Some (mkCn w ln la mo ra (num0 8))) = Some (mkCn w ln la mo ra q)).
  { numbers (num_case print scan order OR (lit "address") 8 (cn_addr c) k8 ltac:(plain_tag) O3 S8). exists (num0 8). auto. }
  destruct P3 as (t3 & K3 & T3 & R3). destruct P4 as (q4 & K4 & T4 & R4). destruct P5 as (T5 & R5). destruct P6 as (q6 & K6 & T6 & R6). destruct P8 as (q8 & K8 & T8 & R8).
  unfold from_cn, from_wcom. rewrite EK. cbn [fold_left]. rewrite !fold_left_app. unfold cncom0, wcom0, comment0. cbn [cn_w cn_linker cn_laddr cn_mono cn_raster cn_addr]. rewrite R1, R2.
  assert (WK : forall ks, Forall (fun k => kind "linker_name" k \/ kind "linker_address" k \/ kind "axis_monotony" k \/ kind "raster" k \/ kind "address" k) ks ->
    forall x, fold_left (w_step order) ks (Some x) = Some x).
  { apply skip_fold. intros x k [T|[T|[T|[T|T]]]]; unfold kind in T; unfold w_step; cbn [obind]; tags T k; reflexivity. }
  rewrite (WK k3), (WK k4), (WK k5), (WK k6), R7, (WK k8), R9 by (eapply Forall_impl; [|eassumption]; intros; cbv beta; auto 8). cbn [obind].
  assert (Q1 : forall x, cn_step scan order (Some x) k1 = Some x) by (intros []; unfold cn_step; cbn [obind]; tags T1 k1; reflexivity).
  assert (CI : forall ks, Forall (fun k => kind "names" k \/ kind "formula" k \/ kind "common_properties" k) ks -> forall x, fold_left (cn_step scan order) ks (Some x) = Some x).
  { apply skip_fold. intros [] k [T|[T|T]]; unfold kind in T; unfold cn_step; cbn [obind]; tags T k; reflexivity. }
  cbn [fold_left]; rewrite Q1, ?fold_left_app, (CI k2), R3, R4, R5, R6, (CI k7), R8, (CI k9) by (eapply Forall_impl; [|eassumption]; intros; cbv beta; auto).
  eexists. split; [reflexivity|]. unfold kept_cn. cbn [cn_w w_md w_names w_form cn_linker cn_laddr cn_mono cn_raster cn_addr].
  split; [split; [split; auto|split; auto]|]. auto.
Qed.

End Order.
End Doubles.
