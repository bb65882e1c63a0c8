(** Proofs about the computation method in a conversion's comment, part 2: methods and whole comments. *)
From Coq Require Import String Permutation Sorting.Sorted Lia.
From Verif Require Import Base BlockModel BlockProofs TextSpec XmlModel XmlSpec XmlProofs XmlProofs2 XmlProofs3 XmlProofs4 XmlProofs5
  CommentModel CommentSpec CommentProofs CommentProofs2 CommentProofs3 CommentProofs4 CommentProofs5 NoteModel NoteSpec NoteProofs NoteProofs2 NoteProofs3 NoteProofs4
  MethModel MethSpec MethProofs.
Local Open Scope N_scope.
Local Open Scope list_scope.

Lemma active_case : forall m, h_active m = false <-> only_category m.
Proof.
  intros [s ls ds c u p i z f t]. unfold h_active, only_category. cbn [h_short h_longs h_descs h_cat h_unit h_phys h_int h_scales h_float h_text]. split.
  - destruct s, ls, ds, u, p, i, z, f, t; cbn; intros; try discriminate. reflexivity.
  - intros E. assert (s = [] /\ ls = [] /\ ds = [] /\ u = [] /\ p = [] /\ i = [] /\ z = [] /\ f = None /\ t = None) as (-> & -> & -> & -> & -> & -> & -> & -> & ->).
    { repeat split; congruence. }
    reflexivity.
Qed.
Lemma skip_plain : forall {A} (step : A -> xnode -> A) (P : xnode -> Prop), (forall c k, P k -> step c k = c) ->
  forall ks, Forall P ks -> forall c, fold_left step ks c = c.
Proof. intros A step P ST. induction ks as [|k ks IH]; intros F c; [reflexivity|]. inversion F; subst. cbn [fold_left]. rewrite ST; auto. Qed.
Lemma strs_kinds : forall s ts ks, Forall2 same (strs (lit s) ts) ks -> Forall (kind s) ks.
Proof.
  intros s ts. unfold strs. generalize (filter has_text ts). intros l. induction l as [|x l IH]; intros ks S; [inversion S; constructor|].
  destruct ks as [|k ks]; [inversion S|]. cbn [map] in S. apply f2_cons in S. destruct S as (S1 & S2). constructor; [|apply IH; exact S2].
  unfold kind. rewrite <- (same_tag _ _ S1). reflexivity.
Qed.

Section Doubles.
Context (print : N -> list N) (scan : list N -> N).
Section Order.
Context (order : list (list N * list N) -> list (list N * list N)) (OR : any_order order).

(** ** The parts of a method *)
Definition detail_tag (k : xnode) : Prop := kind "ho:SHORT-NAME" k \/ kind "ho:LONG-NAME" k \/ kind "ho:DESC" k.
Lemma details_read : forall m ks, meth_ok print m -> Forall2 same (to_details m) ks -> Forall detail_tag ks.
Proof.
  intros m ks (_ & LO & DO & _) S. unfold to_details in S. rewrite !to_strs_tag in S by (auto; plain_tag).
  apply Forall2_app_inv_l in S. destruct S as (k1 & r1 & S1 & S & ->). apply Forall2_app_inv_l in S. destruct S as (k2 & k3 & S2 & S3 & ->).
  apply strs_kinds in S2, S3. rewrite !Forall_app. unfold detail_tag. split; [|split].
  - destruct (text_case (lit "ho:SHORT-NAME") _ _ ltac:(plain_tag) S1) as [(-> & _)|(k & -> & T & _)]; [constructor|]. constructor; [left; exact T|constructor].
  - eapply Forall_impl; [|exact S2]. cbv beta. auto.
  - eapply Forall_impl; [|exact S3]. cbv beta. auto.
Qed.
Lemma details_skip : forall ks m, Forall detail_tag ks -> fold_left (meth_kid scan order) ks m = m.
Proof.
  intros ks m F. apply (skip_plain _ detail_tag); [|exact F]. intros [] k [T|[T|T]]; unfold kind in T; unfold meth_kid; htags T k; reflexivity.
Qed.
Lemma unit_case : forall u ks, Forall2 same (to_unit_ref u) ks -> forall s ls ds c p i z f t,
  fold_left (meth_kid scan order) ks (mkMeth s ls ds c [] p i z f t) = mkMeth s ls ds c (trim u) p i z f t.
Proof.
  intros u ks S s ls ds c p i z f t. unfold to_unit_ref in S. destruct u as [|x u]; [inversion S; subst; reflexivity|].
  destruct (one_back _ _ S) as (k & -> & SK). rewrite new_node_shape in SK by plain_tag.
  pose proof (same_tag _ _ SK) as T. cbn [x_tag set_attr] in T. symmetry in T. cbn [fold_left]. unfold meth_kid. htags T k.
  rewrite (one_attr order OR _ _ (lit "ID-REF") (x :: u) SK eq_refl). rewrite (value_same _ _ SK). unfold vtext. cbn [x_kids x_value set_attr].
  destruct (trim (x :: u)); reflexivity.
Qed.
Lemma unit_ref_ok : forall u, line_ok u -> Forall node_ok (to_unit_ref u).
Proof.
  intros u LO. unfold to_unit_ref. destruct u as [|x u]; [constructor|]. constructor; [|constructor]. rewrite new_node_shape by plain_tag.
  unfold set_attr. cbn [x_tag x_attrs x_value x_kids existsb app]. constructor; [plain_tag| | |exists []; split; [constructor|reflexivity]|constructor].
  - constructor; [intros []|constructor].
  - constructor; [|constructor]. split; [apply name_lit; reflexivity|exact LO].
Qed.
Lemma cons_case : forall tag l ks, name_ok tag -> Forall (con_ok print) l -> Forall2 same (to_cons print tag l) ks ->
  ks = [] /\ l = [] \/ exists k, ks = [k] /\ x_tag k = tag /\ Forall2 (kept_con print scan) (filter limited l) (cons_in scan order k).
Proof.
  intros tag l ks NT F S. unfold to_cons in S. destruct l as [|c l]; [left; inversion S; auto|]. right.
  destruct (one_back _ _ S) as (k & -> & SK). apply inner_back in SK; [|exact NT]. destruct SK as (T & KK). exists k.
  split; [reflexivity|]. split; [exact T|]. apply cons_read; auto.
Qed.
Lemma cons_nodes_ok : forall tag l, name_ok tag -> Forall (con_ok print) l -> Forall node_ok (to_cons print tag l).
Proof.
  intros tag l NT F. unfold to_cons. destruct l; [constructor|]. constructor; [|constructor]. apply inner_ok; auto. apply cons_ok. exact F.
Qed.
Definition phys_kids (m : method) : list xnode :=
  match h_scales m with [] => [] | l => [set_kids (map (to_scale print) l) (new_node (lit "ho:COMPU-SCALES"))] end ++
  to_const print (lit "ho:COMPU-DEFAULT-VALUE") (h_float m) (h_text m).
Definition phys_node (m : method) : xnode := set_kids (phys_kids m) (new_node (lit "ho:COMPU-INTERNAL-TO-PHYS")).
Lemma to_phys_cases : forall m, to_phys print m = [phys_node m] \/
  to_phys print m = [] /\ h_scales m = [] /\ h_float m = None /\ h_text m = None.
Proof. intros m. unfold to_phys, phys_node, phys_kids. destruct (h_scales m), (h_float m), (h_text m); auto. Qed.
Lemma phys_ok : forall m, meth_ok print m -> Forall node_ok (to_phys print m).
Proof.
  intros m (_ & _ & _ & _ & _ & _ & _ & ZO & KO). destruct (to_phys_cases m) as [->|(-> & _)]; [|constructor]. constructor; [|constructor].
  apply inner_ok; [plain_tag|]. unfold phys_kids. apply Forall_app. split; [|apply const_nodes_ok; auto; plain_tag].
  destruct (h_scales m) as [|z l] eqn:E; [constructor|]. rewrite <- E in *. clear E. constructor; [|constructor]. apply inner_ok; [plain_tag|].
  apply Forall_forall. intros n I. apply in_map_iff in I. destruct I as (y & <- & I). apply to_scale_ok. rewrite Forall_forall in ZO. auto.
Qed.
Lemma phys_read : forall m ks, meth_ok print m -> Forall2 same (to_phys print m) ks -> exists z,
  Forall2 (kept_scale print scan) (h_scales m) z /\ forall s ls ds c u p i,
  fold_left (meth_kid scan order) ks (mkMeth s ls ds c u p i [] None None) =
  mkMeth s ls ds c u p i z (option_map (again print scan) (h_float m)) (option_map trim (h_text m)).
Proof.
  intros m ks (_ & _ & _ & _ & _ & _ & _ & ZO & KO) S. destruct (to_phys_cases m) as [E|(E & -> & -> & ->)]; rewrite E in S.
  - destruct (one_back _ _ S) as (k & -> & SK). unfold phys_node in SK. apply inner_back in SK; [|plain_tag]. destruct SK as (T & KK).
    unfold phys_kids in KK. apply Forall2_app_inv_l in KK. destruct KK as (k1 & k2 & S1 & S2 & EK).
    assert (R1 : exists z, Forall2 (kept_scale print scan) (h_scales m) z /\ forall s ls ds c u p i f t,
      fold_left (phys_kid scan order) k1 (mkMeth s ls ds c u p i [] f t) = mkMeth s ls ds c u p i z f t).
    { destruct (h_scales m) as [|y l] eqn:EZ; [inversion S1; subst; exists []; split; [constructor|reflexivity]|]. rewrite <- EZ in *. clear EZ.
      destruct (one_back _ _ S1) as (x & -> & SX). apply inner_back in SX; [|plain_tag]. destruct SX as (TX & KX).
      exists (scales_in scan order x). split.
      - unfold scales_in. eapply all_in; [|exact ZO|exact KX]. intros a k0 A0 S0. apply (scale_read order OR print scan); auto.
      - intros. cbn [fold_left]. unfold phys_kid. htags TX x. reflexivity. }
    destruct R1 as (z & KZ & R1). exists z. split; [exact KZ|]. intros. cbn [fold_left]. unfold meth_kid. htags T k. rewrite EK, fold_left_app, R1.
    destruct (const_case print scan (lit "ho:COMPU-DEFAULT-VALUE") _ _ _ ltac:(plain_tag) S2) as [(-> & -> & ->)|(x & -> & TX & F)]; [reflexivity|].
    cbn [fold_left]. unfold phys_kid. htags TX x. rewrite F. reflexivity.
  - inversion S; subst. exists []. split; [constructor|reflexivity].
Qed.

(** ** Methods *)
Definition meth_kids (m : method) : list xnode :=
  to_details m ++ [leaf (lit "ho:CATEGORY") (enum_text cat_texts (h_cat m))] ++ to_unit_ref (h_unit m) ++
  to_cons print (lit "ho:PHYS-CONSTRS") (h_phys m) ++ to_cons print (lit "ho:INTERNAL-CONSTRS") (h_int m) ++ to_phys print m.
Lemma meth_nodes_ok : forall m, meth_ok print m -> Forall node_ok (to_meth print m).
Proof.
  intros m OK. unfold to_meth. destruct (h_active m); [|constructor]. constructor; [|constructor]. apply inner_ok; [plain_tag|].
  pose proof (phys_ok m OK) as PH. destruct OK as (SO & LO & DO & CO & UO & PO & IO & _). rewrite !Forall_app. split; [|split; [|split; [|split; [|split]]]].
  - unfold to_details. rewrite !Forall_app. split; [apply text_nodes_ok; auto; plain_tag|]. split; apply desc_nodes; auto; plain_tag.
  - constructor; [|constructor]. apply leaf_ok; [plain_tag|]. apply line_text. apply (cat_enum _ CO).
  - apply unit_ref_ok. exact UO.
  - apply cons_nodes_ok; auto; plain_tag.
  - apply cons_nodes_ok; auto; plain_tag.
  - exact PH.
Qed.
Lemma meth_read : forall m ks, meth_ok print m -> Forall2 same (to_meth print m) ks -> Forall (kind "ho:COMPU-METHOD") ks /\
  kept_meth print scan m (fold_left (cc_kid scan order) ks meth0).
Proof.
  intros m ks OK S. unfold to_meth in S. destruct (h_active m) eqn:A.
  - destruct (one_back _ _ S) as (k & -> & SK). apply inner_back in SK; [|plain_tag]. destruct SK as (T & KK). split; [constructor; [exact T|constructor]|].
    split; [intros OC; apply active_case in OC; congruence|]. intros _. cbn [fold_left]. unfold cc_kid. htags T k. unfold from_meth, meth0.
    apply Forall2_app_inv_l in KK. destruct KK as (k1 & r1 & S1 & KK & ->). cbn [app] in KK. destruct r1 as [|k2 r2]; [inversion KK|].
    apply f2_cons in KK. destruct KK as (S2 & KK).
    apply Forall2_app_inv_l in KK. destruct KK as (k3 & r3 & S3 & KK & ->).
    apply Forall2_app_inv_l in KK. destruct KK as (k4 & r4 & S4 & KK & ->).
    apply Forall2_app_inv_l in KK. destruct KK as (k5 & k6 & S5 & S6 & ->).
    destruct (phys_read m k6 OK S6) as (z & KZ & R6). pose proof (details_read m k1 OK S1) as D1. destruct OK as (SO & LO & DO & CO & UO & PO & IO & _).
    rewrite fold_left_app, (details_skip k1) by exact D1. cbn [fold_left]. rewrite !fold_left_app.
    assert (R2 : meth_kid scan order (mkMeth [] [] [] 0 [] [] [] [] None None) k2 = mkMeth [] [] [] (h_cat m) [] [] [] [] None None).
    { apply leaf_back in S2; [|plain_tag]. destruct S2 as (T2 & V2). unfold meth_kid. htags T2 k2. rewrite V2.
      destruct (cat_enum _ CO) as (_ & c & r & -> & ->). reflexivity. }
    rewrite R2, (unit_case _ _ S3).
    assert (R4 : exists p, Forall2 (kept_con print scan) (filter limited (h_phys m)) p /\ forall s ls ds c u i z f t,
      fold_left (meth_kid scan order) k4 (mkMeth s ls ds c u [] i z f t) = mkMeth s ls ds c u p i z f t).
    { destruct (cons_case (lit "ho:PHYS-CONSTRS") _ _ ltac:(plain_tag) PO S4) as [(-> & ->)|(x & -> & TX & K)]; [exists []; split; [constructor|reflexivity]|].
      exists (cons_in scan order x). split; [exact K|]. intros. cbn [fold_left]. unfold meth_kid. htags TX x. reflexivity. }
    assert (R5 : exists i, Forall2 (kept_con print scan) (filter limited (h_int m)) i /\ forall s ls ds c u p z f t,
      fold_left (meth_kid scan order) k5 (mkMeth s ls ds c u p [] z f t) = mkMeth s ls ds c u p i z f t).
    { destruct (cons_case (lit "ho:INTERNAL-CONSTRS") _ _ ltac:(plain_tag) IO S5) as [(-> & ->)|(x & -> & TX & K)]; [exists []; split; [constructor|reflexivity]|].
      exists (cons_in scan order x). split; [exact K|]. intros. cbn [fold_left]. unfold meth_kid. htags TX x. reflexivity. }
    destruct R4 as (p & KP & R4). destruct R5 as (i & KI & R5). rewrite R4, R5, R6.
    cbn [h_short h_longs h_descs h_cat h_unit h_phys h_int h_scales h_float h_text]. auto 12.
  - inversion S; subst. split; [constructor|]. split; [reflexivity|]. intros NO. exfalso. apply NO. apply active_case. exact A.
Qed.

(** ** Comments *)
Definition cc_attrs (c : cccom) : list (list N * list N) :=
  if h_active (cc_meth c) then [(lit "xmlns:ho", lit "http://www.asam.net/xml")] else [].
Lemma to_cc_shape : forall c, to_cc print c = XNode (lit "CCcomment") (cc_attrs c) [] (cc_kids print c).
Proof.
  intros c. unfold to_cc, root, cc_attrs. change (lit "CC" ++ lit "comment") with (lit "CCcomment"). rewrite new_node_shape by plain_tag.
  destruct (h_active (cc_meth c)); reflexivity.
Qed.
Lemma cc_back : forall c s, cc_ok print c -> text_of order (to_cc print c) s ->
  exists c', from_text (from_cc scan order) describe_cc s cccom0 = Some c' /\ kept_cc print scan c c'.
Proof.
  intros c s ((MO & AO & FO) & HO) TX. rewrite to_cc_shape in TX. unfold cc_kids, w_tx in TX. rewrite to_tx in TX by apply MO.
  set (kids := [str_node _ _] ++ _) in TX.
  assert (NO : node_ok (XNode (lit "CCcomment") (cc_attrs c) [] kids)).
  { assert (KO : Forall node_ok kids).
    { unfold kids. rewrite !Forall_app. split; [|split; [|split; [|split]]].
      - constructor; [|constructor]. apply str_node_ok; [plain_tag|apply MO].
      - apply names_ok_nodes; [plain_tag|auto].
      - apply form_ok; auto.
      - apply meth_nodes_ok; exact HO.
      - apply common_ok; auto. }
    constructor; auto; [plain_tag| | |exists []; split; [constructor|reflexivity]].
    - unfold cc_attrs. destruct (h_active _); [|constructor]. constructor; [intros []|constructor].
    - unfold cc_attrs. destruct (h_active _); [|constructor]. constructor; [|constructor]. split; [apply name_lit; reflexivity|apply line_lit; reflexivity]. }
  destruct (from_text_node (from_cc scan order) describe_cc order _ s cccom0 OR NO TX) as (n' & E & S). rewrite E. clear E TX NO.
  apply same_kids in S. cbn [x_kids] in S. unfold kids in S. cbn [app] in S. destruct (x_kids n') as [|k1 kr] eqn:EK; [inversion S|].
  apply f2_cons in S. destruct S as (S1 & SR).
  apply Forall2_app_inv_l in SR. destruct SR as (k2 & kr2 & S2 & SR & ->).
  apply Forall2_app_inv_l in SR. destruct SR as (k3 & kr3 & S3 & SR & ->).
  apply Forall2_app_inv_l in SR. destruct SR as (k4 & k5 & S4 & S5 & ->).
  destruct (w_tx_part order OR _ _ (proj1 MO) S1) as (t' & K1 & R1). pose proof (tx_part _ _ S1) as T1.
  destruct (w_names_part order OR _ _ AO S2) as (a' & K2 & T2 & R2). destruct (w_form_part order OR _ _ FO S3) as (f' & K3 & T3 & R3).
  destruct (w_common_part order OR _ _ MO S5) as (l' & K5 & T5 & R5). destruct (meth_read _ _ HO S4) as (T4 & K4).
  unfold from_cc, from_wcom. rewrite EK. cbn [fold_left cc_w cc_meth cccom0]. rewrite !fold_left_app. unfold wcom0, comment0. rewrite R1, R2, R3.
  assert (WK : forall x, fold_left (w_step order) k4 (Some x) = Some x).
  { intros x. apply (skip_fold (w_step order) (kind "ho:COMPU-METHOD")); [|exact T4]. intros y k T. unfold kind in T. unfold w_step. cbn [obind]. htags T k. reflexivity. }
  rewrite WK, R5. cbn [obind].
  assert (Q1 : forall m, cc_kid scan order m k1 = m) by (intros; unfold cc_kid; tags T1 k1; reflexivity).
  assert (SK : forall ks, Forall (fun k => kind "names" k \/ kind "formula" k \/ kind "common_properties" k) ks -> forall m, fold_left (cc_kid scan order) ks m = m).
  { apply skip_plain. intros m k [T|[T|T]]; unfold kind in T; unfold cc_kid; tags T k; reflexivity. }
  cbn [fold_left]; rewrite ?fold_left_app, Q1, (SK k2), (SK k3), (SK k5) by (eapply Forall_impl; [|eassumption]; intros; cbv beta; auto).
  eexists. split; [reflexivity|]. split; [|exact K4]. split; [split; auto|]. auto.
Qed.

End Order.
End Doubles.
