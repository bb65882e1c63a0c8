(** Proofs about the comments of channels, sources, events and units, part 2: numbers, texts with an
    offset and alternative names. *)
From Coq Require Import String Permutation Sorting.Sorted Lia.
From Verif Require Import Base BlockModel TextSpec XmlModel XmlSpec XmlProofs XmlProofs2 XmlProofs3 XmlProofs4 XmlProofs5
  CommentModel CommentSpec CommentProofs CommentProofs2 CommentProofs3 CommentProofs4 CommentProofs5 NoteModel NoteSpec NoteProofs.
Local Open Scope N_scope.
Local Open Scope list_scope.

Section Doubles.
Context (print : N -> list N) (scan : list N -> option N).

(** ** Numbers *)
Definition some_text (v : list N) : option (list N) := match v with [] => None | _ => Some v end.
Lemma text_piece : forall k v, text_attr k v = piece (lit k, some_text v).
Proof. intros k [|c v]; reflexivity. Qed.
Definition num_table (q : num) : list (list N * option (list N)) :=
  [(lit "byte_count", match q_count q with Some c => if c =? 8 then None else Some (int_text (Z.of_N c)) | None => None end);
   (lit "bit_mask", option_map hex_text (q_mask q));
   (lit "byte_order", if q_be q then Some (lit "BE") else None);
   (lit "min", option_map print (q_min q)); (lit "max", option_map print (q_max q)); (lit "average", option_map print (q_avg q));
   (lit "unit", some_text (q_unit q)); (lit "unit_ref", some_text (q_ref q));
   (lit "triggered", if q_trig q then Some (lit "true") else None)].
Definition num_attrs (q : num) : list (list N * list N) := attrs_of (num_table q).
Definition num_node (tag : list N) (q : num) : xnode := XNode tag (std_attrs (num_attrs q) (q_std q)) (q_text q) [].

Lemma num_vocab : vocab num_keys.
Proof. repeat constructor. Qed.

Lemma num_own : forall q, num_ok print q -> own_ok num_keys (num_attrs q).
Proof.
  intros q (_ & _ & CO & MA & L1 & L2 & L3 & LU & LR). split.
  - apply attrs_nodup. cbn [num_table map fst]. apply apart_ok. vm_compute. reflexivity.
  - apply Forall_forall. intros [k v] I. apply attrs_key in I. cbn [fst snd] in *.
    assert (G : In k num_keys /\ name_ok k /\ ieq k (lit "ci") = false /\ ieq k (lit "xml:lang") = false /\ line_ok v).
    { unfold num_table in I. unfold num_keys. unfold limit_ok in *. cbn [In] in I.
      assert (K : forall s o, (lit s, o) = (k, Some v) -> k = lit s /\ o = Some v) by (intros; split; congruence).
      repeat (destruct I as [I|I]; [apply K in I; destruct I as [-> I]; split; [cbn [In]; auto 12|]; split; [apply name_lit; reflexivity|]; split; [reflexivity|]; split; [reflexivity|]|]); [..|destruct I].
      - destruct (q_count q) as [c|]; [|discriminate]. destruct (c =? 8); [discriminate|]. assert (v = int_text (Z.of_N c)) as -> by congruence. apply int_line.
      - destruct (q_mask q) as [c|]; [|discriminate]. assert (v = hex_text c) as -> by (cbn [option_map] in I; congruence). apply hex_line.
      - destruct (q_be q); [|discriminate]. assert (v = lit "BE") as -> by congruence. apply line_lit. reflexivity.
      - destruct (q_min q) as [c|]; [|discriminate]. assert (v = print c) as -> by (cbn [option_map] in I; congruence). exact L1.
      - destruct (q_max q) as [c|]; [|discriminate]. assert (v = print c) as -> by (cbn [option_map] in I; congruence). exact L2.
      - destruct (q_avg q) as [c|]; [|discriminate]. assert (v = print c) as -> by (cbn [option_map] in I; congruence). exact L3.
      - destruct (q_unit q); [discriminate|]. cbn [some_text] in I. assert (v = n :: l) as -> by congruence. exact LU.
      - destruct (q_ref q); [discriminate|]. cbn [some_text] in I. assert (v = n :: l) as -> by congruence. exact LR.
      - destruct (q_trig q); [|discriminate]. assert (v = lit "true") as -> by congruence. apply line_lit. reflexivity. }
    destruct G as (G1 & G2 & G3 & G4 & G5). repeat split; auto; intros A; apply ieq_alike in A; congruence.
Qed.

Lemma num_written : forall tag q, name_ok tag -> num_ok print q -> exists a, Permutation a (std_attrs (num_attrs q) (q_std q)) /\
  to_num print tag q = match q_text q with [] => [] | _ => [XNode tag a (q_text q) []] end.
Proof.
  intros tag q NT OK. pose proof (num_own q OK) as OW. destruct OK as (SO & _).
  exists (fold_left add_attr (num_attrs q) (std_attrs [] (q_std q))). split.
  { apply (late num_keys); [apply std_none; auto|auto|]. eapply none_agrees; eauto. }
  unfold to_num. destruct (q_text q) as [|c t] eqn:ET; [reflexivity|]. rewrite <- ET. clear ET c t. cbv zeta.
  rewrite new_node_shape by auto. set (n0 := put_std _ _).
  assert (N0 : x_tag n0 = tag /\ x_value n0 = [] /\ x_kids n0 = [] /\ x_attrs n0 = std_attrs [] (q_std q)).
  { destruct (put_std_shape (q_std q) (XNode tag [] [] [])) as (A & B & C & _). repeat split; auto.
    apply (std_written num_keys); auto. apply own_nil. }
  set (n1 := match q_count q with Some _ => _ | None => _ end).
  assert (A1 : adds (piece (lit "byte_count", match q_count q with Some c => if c =? 8 then None else Some (int_text (Z.of_N c)) | None => None end)) n0 n1).
  { subst n1. destruct (q_count q) as [c|]; [|apply adds_nil]. destruct (c =? 8); [apply adds_nil|apply adds_attr]. }
  clearbody n1. set (n2 := set_opt (lit "bit_mask") _ n1).
  assert (A2 := adds_opt (lit "bit_mask") (option_map hex_text (q_mask q)) n1). fold n2 in A2. clearbody n2.
  set (n3 := if q_be q then _ else n2).
  assert (A3 : adds (piece (lit "byte_order", if q_be q then Some (lit "BE") else None)) n2 n3).
  { subst n3. destruct (q_be q); [apply adds_attr|apply adds_nil]. }
  clearbody n3. set (n4 := set_opt (lit "min") _ n3). assert (A4 := adds_opt (lit "min") (option_map print (q_min q)) n3). fold n4 in A4. clearbody n4.
  set (n5 := set_opt (lit "max") _ n4). assert (A5 := adds_opt (lit "max") (option_map print (q_max q)) n4). fold n5 in A5. clearbody n5.
  set (n6 := set_opt (lit "average") _ n5). assert (A6 := adds_opt (lit "average") (option_map print (q_avg q)) n5). fold n6 in A6. clearbody n6.
  set (n7 := set_text (lit "unit") _ n6). assert (A7 := adds_text "unit" (q_unit q) n6). fold n7 in A7. clearbody n7.
  set (n8 := set_text (lit "unit_ref") _ n7). assert (A8 := adds_text "unit_ref" (q_ref q) n7). fold n8 in A8. clearbody n8.
  rewrite text_piece in A7, A8.
  set (n9 := if q_trig q then _ else n8).
  assert (A9 : adds (piece (lit "triggered", if q_trig q then Some (lit "true") else None)) n8 n9).
  { subst n9. destruct (q_trig q); [apply adds_attr|apply adds_nil]. }
  clearbody n9.
  pose proof (adds_trans _ _ _ _ _ A1 (adds_trans _ _ _ _ _ A2 (adds_trans _ _ _ _ _ A3 (adds_trans _ _ _ _ _ A4 (adds_trans _ _ _ _ _ A5
    (adds_trans _ _ _ _ _ A6 (adds_trans _ _ _ _ _ A7 (adds_trans _ _ _ _ _ A8 (adds_trans _ _ _ _ _ A9 (adds_nil n9)))))))))) as A.
  match type of A with adds ?l _ _ => change l with (num_attrs q) in A end.
  destruct A as (B1 & B2 & B3 & B4). destruct N0 as (C1 & C2 & C3 & C4). destruct n9 as [tg at_ vl kd]. cbn [x_tag x_value x_kids x_attrs] in *.
  unfold set_value. cbn [x_tag x_attrs x_kids]. rewrite B1, B3, B4, C1, C3, C4. reflexivity.
Qed.
Lemma num_node_ok : forall tag q, name_ok tag -> num_ok print q -> node_ok (num_node tag q).
Proof.
  intros tag q NT OK. pose proof (num_own q OK) as OW. destruct OK as (SO & TX & _). apply (std_none _ (num_attrs q)) in SO. constructor; auto.
  - apply keys_fst. eapply std_keys; eauto.
  - eapply std_fine; eauto.
Qed.
Lemma num_nodes_ok : forall tag q, name_ok tag -> num_ok print q -> Forall node_ok (to_num print tag q).
Proof.
  intros tag q NT OK. destruct (num_written tag q NT OK) as (a & P & ->). destruct (q_text q) eqn:E; constructor; [|constructor].
  eapply perm_ok; [|exact P]. rewrite <- E. apply num_node_ok; auto.
Qed.

Section Order.
Context (order : list (list N * list N) -> list (list N * list N)) (OR : any_order order).

Definition num_result (n : xnode) (L : list (list N * list N)) (s : std) (q : num) : num :=
  mkNum s (q_text q) (over (pick (lit "triggered") L) (fun _ => attr_bool order (lit "triggered") n) (q_trig q)) (q_type q)
    (over (pick (lit "byte_count") L) stoull (q_count q)) (over (pick (lit "bit_mask") L) (fun v => read_mask v (q_mask q)) (q_mask q))
    (over (pick (lit "byte_order") L) (fun v => if beq v (lit "BE") then true else q_be q) (q_be q))
    (over (pick (lit "min") L) scan (q_min q)) (over (pick (lit "max") L) scan (q_max q)) (over (pick (lit "average") L) scan (q_avg q))
    (over (pick (lit "unit") L) (fun v => v) (q_unit q)) (over (pick (lit "unit_ref") L) (fun v => v) (q_ref q)).

Lemma num_fold : forall n L q s', NoDup (map fst L) ->
  fold_left (fun r a => obind r (fun s => read_attr s a)) (filter (usual num_keys) L) (Some (q_std q)) = Some s' ->
  fold_left (fun r a => obind r (fun q => read_num_attr scan order n q a)) L (Some q) = Some (num_result n L s' q).
Proof.
  intros n. induction L as [|[k v] L IH]; intros q s' ND F.
  - cbn in F. assert (q_std q = s') as <- by congruence. destruct q. reflexivity.
  - inversion ND as [|? ? NI ND']; subst. cbn [fst] in NI. cbn [fold_left obind]. pose proof (pick_none k L NI) as PN.
    assert (NN : forall r, fold_left (fun r a => obind r (fun s => read_attr s a)) r None = None).
    { induction r as [|a r IHr]; [reflexivity|]. cbn [fold_left obind]. exact IHr. }
    destruct (usual num_keys (k, v)) eqn:U.
    + assert (NK : ~ In k num_keys) by (apply usual_iff in U; exact U).
      assert (E : forall k', In k' num_keys -> beq k k' = false) by (intros k' I; apply beq_false; intros ->; contradiction).
      cbn [filter] in F. rewrite U in F. cbn [fold_left obind] in F.
      destruct (read_attr (q_std q) (k, v)) as [s1|] eqn:RA; [|rewrite NN in F; discriminate].
      assert (ST : read_num_attr scan order n q (k, v) = Some (mkNum s1 (q_text q) (q_trig q) (q_type q) (q_count q) (q_mask q) (q_be q)
        (q_min q) (q_max q) (q_avg q) (q_unit q) (q_ref q))).
      { destruct q as [s t tr ty ct mk be mi ma av un rf]. cbn [q_std q_text q_trig q_type q_count q_mask q_be q_min q_max q_avg q_unit q_ref] in *.
        unfold read_num_attr. unfold read_attr in RA. destruct (beq k (lit "ci") && negb (beq v [])).
        - destruct (stoll v); cbn [obind] in *; congruence.
        - destruct (beq k (lit "xml:lang")); [congruence|]. rewrite !E by (cbn [num_keys In]; auto 12). congruence. }
      rewrite ST. rewrite (IH _ s'); auto. unfold num_result. cbn [q_std q_text q_trig q_type q_count q_mask q_be q_min q_max q_avg q_unit q_ref].
      rewrite !pick_cons. cbn [fst snd]. rewrite !E by (cbn [num_keys In]; auto 12). reflexivity.
    + assert (IK : In k num_keys).
      { destruct (in_dec (list_eq_dec N.eq_dec) k num_keys) as [I|I]; auto. exfalso. assert (usual num_keys (k, v) = true) by (apply usual_iff; exact I). congruence. }
      cbn [filter] in F. rewrite U in F. clear U NN NI.
      destruct q as [s t tr ty ct mk be mi ma av un rf]. cbn [q_std] in F.
      cbn [num_keys In] in IK.
      repeat (destruct IK as [<-|IK]; [|]); [..|destruct IK].
      * change (read_num_attr scan order n (mkNum s t tr ty ct mk be mi ma av un rf) (lit "average", v))
          with (Some (mkNum s t tr ty ct mk be mi ma (scan v) un rf)).
        rewrite (IH (mkNum s t tr ty ct mk be mi ma (scan v) un rf) s') by auto. f_equal. unfold num_result. rewrite !pick_cons, PN. reflexivity.
      * change (read_num_attr scan order n (mkNum s t tr ty ct mk be mi ma av un rf) (lit "bit_mask", v))
          with (Some (mkNum s t tr ty ct (read_mask v mk) be mi ma av un rf)).
        rewrite (IH (mkNum s t tr ty ct (read_mask v mk) be mi ma av un rf) s') by auto. f_equal. unfold num_result. rewrite !pick_cons, PN. reflexivity.
      * change (read_num_attr scan order n (mkNum s t tr ty ct mk be mi ma av un rf) (lit "byte_count", v))
          with (Some (mkNum s t tr ty (stoull v) mk be mi ma av un rf)).
        rewrite (IH (mkNum s t tr ty (stoull v) mk be mi ma av un rf) s') by auto. f_equal. unfold num_result. rewrite !pick_cons, PN. reflexivity.
      * change (read_num_attr scan order n (mkNum s t tr ty ct mk be mi ma av un rf) (lit "byte_order", v))
          with (Some (mkNum s t tr ty ct mk (if beq v (lit "BE") then true else be) mi ma av un rf)).
        rewrite (IH (mkNum s t tr ty ct mk (if beq v (lit "BE") then true else be) mi ma av un rf) s') by auto. f_equal. unfold num_result. rewrite !pick_cons, PN. reflexivity.
      * change (read_num_attr scan order n (mkNum s t tr ty ct mk be mi ma av un rf) (lit "max", v))
          with (Some (mkNum s t tr ty ct mk be mi (scan v) av un rf)).
        rewrite (IH (mkNum s t tr ty ct mk be mi (scan v) av un rf) s') by auto. f_equal. unfold num_result. rewrite !pick_cons, PN. reflexivity.
      * change (read_num_attr scan order n (mkNum s t tr ty ct mk be mi ma av un rf) (lit "min", v))
          with (Some (mkNum s t tr ty ct mk be (scan v) ma av un rf)).
        rewrite (IH (mkNum s t tr ty ct mk be (scan v) ma av un rf) s') by auto. f_equal. unfold num_result. rewrite !pick_cons, PN. reflexivity.
      * change (read_num_attr scan order n (mkNum s t tr ty ct mk be mi ma av un rf) (lit "triggered", v))
          with (Some (mkNum s t (attr_bool order (lit "triggered") n) ty ct mk be mi ma av un rf)).
        rewrite (IH (mkNum s t (attr_bool order (lit "triggered") n) ty ct mk be mi ma av un rf) s') by auto. f_equal. unfold num_result. rewrite !pick_cons, PN. reflexivity.
      * change (read_num_attr scan order n (mkNum s t tr ty ct mk be mi ma av un rf) (lit "unit", v))
          with (Some (mkNum s t tr ty ct mk be mi ma av v rf)).
        rewrite (IH (mkNum s t tr ty ct mk be mi ma av v rf) s') by auto. f_equal. unfold num_result. rewrite !pick_cons, PN. reflexivity.
      * change (read_num_attr scan order n (mkNum s t tr ty ct mk be mi ma av un rf) (lit "unit_ref", v))
          with (Some (mkNum s t tr ty ct mk be mi ma av un v)).
        rewrite (IH (mkNum s t tr ty ct mk be mi ma av un v) s') by auto. f_equal. unfold num_result. rewrite !pick_cons, PN. reflexivity.
Qed.

Ltac table := repeat (rewrite pick_skip by reflexivity); rewrite pick_table; repeat (rewrite pick_skip by reflexivity).

Lemma num_read : forall tag type q n', num_ok print q -> same (num_node tag q) n' ->
  exists q', from_num scan order n' (num0 type) = Some q' /\ kept_num print scan type q q'.
Proof.
  intros tag type q n' OK S. pose proof (num_own q OK) as OW. destruct OK as (SO & TX & CO & MA & L1 & L2 & L3 & LU & LR).
  pose proof (std_none _ (num_attrs q) _ SO) as SO'. pose proof num_vocab as VO.
  destruct (read_members order OR num_keys _ _ _ _ _ SO' OW S) as (ND & MEM).
  destruct (usual_fold num_keys _ _ _ SO OW VO ND MEM) as (s' & F & K).
  unfold from_num. rewrite (num_fold n' _ (num0 type) s' ND F). cbn [obind].
  eexists. split; [reflexivity|]. unfold num_result.
  assert (P : forall k, In k num_keys -> pick k (attr_map order n') = pick k (num_attrs q)).
  { intros k I. eapply special_pick; eauto. }
  rewrite !P by (cbn [num_keys In]; auto 12).
  assert (AB : attr_bool order (lit "triggered") n' = q_trig q).
  { unfold attr_bool. rewrite (attr_read order OR num_keys (num_attrs q) (q_std q) (lit "triggered") tag (q_text q) [] n'); auto; [|cbn [num_keys In]; auto 12].
    assert (FN : forall k' o t, ieq k' (lit "triggered") = false ->
      find (fun '(a, _) => ieq a (lit "triggered")) (attrs_of ((k', o) :: t)) = find (fun '(a, _) => ieq a (lit "triggered")) (attrs_of t)).
    { intros k' [w|] t E; [|reflexivity]. unfold attrs_of. cbn [map concat piece snd fst app find]. rewrite E. reflexivity. }
    unfold num_attrs, num_table. rewrite !FN by reflexivity. destruct (q_trig q); reflexivity. }
  rewrite AB. clear P AB. unfold num_attrs, num_table. cbn [num0 q_std q_text q_trig q_type q_count q_mask q_be q_min q_max q_avg q_unit q_ref].
  unfold kept_num. cbn [q_std q_text q_trig q_type q_count q_mask q_be q_min q_max q_avg q_unit q_ref].
  split; [exact K|]. split; [rewrite (value_same _ _ S); reflexivity|].
  split; [table; destruct (q_trig q); reflexivity|]. split; [reflexivity|].
  split. { unfold byte_count. cbn [q_count]. table. destruct (q_count q) as [c|] eqn:E; [|reflexivity]. destruct (N.eqb_spec c 8) as [->|NE]; [reflexivity|].
    cbn [over]. rewrite stoull_int by (apply CO; reflexivity). reflexivity. }
  split. { table. destruct (q_mask q) as [m|] eqn:E; [|reflexivity]. cbn [option_map over]. apply read_hex. apply MA. reflexivity. }
  split; [table; destruct (q_be q); reflexivity|].
  split; [table; destruct (q_min q); reflexivity|]. split; [table; destruct (q_max q); reflexivity|].
  split; [table; destruct (q_avg q); reflexivity|]. split; [table; destruct (q_unit q); reflexivity|].
  table; destruct (q_ref q); reflexivity.
Qed.

(** What the tags of a number in a comment are read as. *)
Lemma num_case : forall tag type q ks, name_ok tag -> num_ok print q -> Forall2 same (to_num print tag q) ks ->
  (ks = [] /\ kept_opt_num print scan type q (num0 type)) \/
  (exists k q', ks = [k] /\ x_tag k = tag /\ from_num scan order k (num0 type) = Some q' /\ kept_opt_num print scan type q q').
Proof.
  intros tag type q ks NT OK S. destruct (num_written tag q NT OK) as (a & P & E). rewrite E in S. unfold kept_opt_num. destruct (q_text q) eqn:ET.
  - inversion S; subst. auto.
  - inversion S as [|? k ? r S1 S2]; subst. inversion S2; subst. right. rewrite <- ET in S1. apply (same_perm _ _ _ _ _ _ S1) in P.
    destruct (num_read tag type q k OK P) as (q' & F & K). exists k, q'. split; [reflexivity|]. split; [symmetry; exact (same_tag _ _ P)|]. auto.
Qed.

End Order.
End Doubles.
