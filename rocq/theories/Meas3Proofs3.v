(** The calls of an MDF3 measurement: each write is the writer of a changed description. *)
From Verif Require Import Base BlockModel BlockSpec BlockProofs BlockProofs3 BlockProofs4 StreamModel StreamSpec StreamProofs Stream3Model Stream3Proofs
  ConvModel CcModel Cc3Proofs MetaModel MetaProofs
  IdentModel Meta3Model Meta3Spec Meta3Proofs Meta3Proofs2 MeasModel MeasProofs MeasProofs2 MeasProofs4
  Meas3Model Meas3Proofs Meas3Proofs2 Meas3Spec.
Local Open Scope N_scope.

Lemma upd_split : forall {A} (l1 : list A) x y l2, upd_nth (length l1) (fun _ => y) (l1 ++ x :: l2) = l1 ++ y :: l2.
Proof. intros A l1 x y l2. induction l1 as [|a r IH]; [reflexivity|]. cbn [length app]. rewrite upd_cons, IH. reflexivity. Qed.

Lemma forall2_length : forall {A B} (R : A -> B -> Prop) l l', Forall2 R l l' -> length l' = length l.
Proof. intros A B R l l' F. induction F; cbn; congruence. Qed.

(** The place of a data group. *)
Lemma places_b_length : forall bs n, length (places_b bs n) = length bs.
Proof. induction bs as [|b r IH]; intros n; [reflexivity|]. cbn [places_b length]. rewrite IH. reflexivity. Qed.

Definition place_at (h : hd3) (n k : nat) : nat := nth k (places_b (map dg_b (h3_dgs h)) (dgs_at h n)) 0%nat.

Lemma nth_combine : forall {A B C} (g : A * B -> C) (la : list A) (lb : list B) k b a0, length la = length lb -> nth_error lb k = Some b ->
  nth_error (map g (combine la lb)) k = Some (g (nth k la a0, b)).
Proof.
  intros A B C g la. induction la as [|a r IH]; intros [|x lb] k b a0 L E; try discriminate; [destruct k; discriminate|].
  destruct k as [|k]; cbn [combine map nth_error nth] in *.
  - congruence.
  - apply IH; [cbn in L; lia|exact E].
Qed.

Lemma hd_place_at : forall h n k d, nth_error (h3_dgs h) k = Some d ->
  nth_error (hd_places_b h n) k = Some (place_at h n k, dg_places_b d (place_at h n k)).
Proof.
  intros h n k d E. unfold hd_places_b, place_at.
  rewrite (nth_combine (fun '(m, d) => (m, dg_places_b d m)) _ _ k d 0%nat); [reflexivity| |exact E].
  rewrite places_b_length, map_length. reflexivity.
Qed.

Lemma hd_alike_place : forall h h' n k, hd_alike h h' -> place_at h' n k = place_at h n k.
Proof.
  intros h h' n k [EC F]. unfold place_at, dgs_at. rewrite EC.
  destruct (chain_alike _ _ (dgs_alike _ _ F) (steady_dgs _) (steady_dgs _) (n + 208 + length (text_b (h3_comment h) (n + 208)))) as [-> _].
  reflexivity.
Qed.

(* ------------------------------------------------------------------ *)
(** ** Counters *)

Definition only_nof (g g' : cg3) : Prop := g' = set_nof (g3_nof g') g.

Lemma only_nof_alike : forall l l', Forall2 only_nof l l' -> Forall2 cg_alike l l'.
Proof. intros l l' F. induction F as [|g g' r r' E F IH]; constructor; auto. unfold only_nof in E. rewrite E. split; reflexivity. Qed.

Lemma cg_alike_refl : forall l, Forall2 cg_alike l l.
Proof. induction l; constructor; auto. split; reflexivity. Qed.
Lemma dg_alike_refl : forall l, Forall2 dg_alike l l.
Proof. induction l; constructor; auto. apply cg_alike_refl. Qed.

Lemma cgs_writes_nth : forall (cgs : list (nat * unit)) d', cgs3_writes cgs d' =
  map (fun '((p, _), g) => ((p + 22)%nat, le_bytes 4 (g3_nof g))) (combine cgs (d3_cgs d')).
Proof.
  intros cgs d'. unfold cgs3_writes. generalize (d3_cgs d'). induction cgs as [|[p u] r IH]; intros [|g l]; try reflexivity.
  cbn [combine map concat cg3_writes app]. rewrite IH. reflexivity.
Qed.

Lemma firstn_snoc : forall {A} (l : list A) k x, nth_error l k = Some x -> firstn (S k) l = firstn k l ++ [x].
Proof.
  induction l as [|a r IH]; intros [|k] x E; try discriminate; cbn [nth_error firstn app] in *; [congruence|].
  rewrite (IH k x E). reflexivity.
Qed.
Lemma skipn_at : forall {A} (l : list A) k x, nth_error l k = Some x -> skipn k l = x :: skipn (S k) l.
Proof. induction l as [|a r IH]; intros [|k] x E; try discriminate; cbn [nth_error skipn] in *; [congruence|]. apply IH. exact E. Qed.

Lemma puts_app : forall ws1 ws2 f, puts f (ws1 ++ ws2) = puts (puts f ws1) ws2.
Proof. intros ws1 ws2 f. unfold puts. apply fold_left_app. Qed.

Lemma cgs_edit : forall h l1 d l2 cgs' (pre post : file) c, h3_dgs h = l1 ++ d :: l2 ->
  Forall2 only_nof (d3_cgs d) cgs' ->
  puts (pre ++ hd_b h (length pre) ++ post)
    (firstn c (cgs3_writes (dg_places_b d (place_at h (length pre) (length l1))) (set_cgs cgs' d))) =
  pre ++ hd_b (set_dgs3 h (l1 ++ set_cgs (firstn c cgs' ++ skipn c (d3_cgs d)) d :: l2)) (length pre) ++ post.
Proof.
  intros h l1 d l2 cgs' pre post c E F.
  assert (LL : length cgs' = length (d3_cgs d)) by (eapply forall2_length; exact F).
  induction c as [|c IH].
  - cbn [firstn skipn app]. unfold puts. cbn [fold_left].
    replace (set_cgs (d3_cgs d) d) with d by (destruct d; reflexivity). rewrite <- E.
    replace (set_dgs3 h (h3_dgs h)) with h by (destruct h; reflexivity). reflexivity.
  - rewrite cgs_writes_nth in *. cbn [set_cgs d3_cgs] in *.
    set (ws := map _ (combine _ cgs')) in *.
    destruct (nth_error cgs' c) as [g'|] eqn:EG.
    + assert (EO : exists g, nth_error (d3_cgs d) c = Some g).
      { destruct (nth_error (d3_cgs d) c) eqn:X; [eauto|]. apply nth_error_None in X.
        assert (c < length cgs')%nat by (apply nth_error_Some; congruence). lia. }
      destruct EO as [g EO].
      assert (EN : only_nof g g').
      { clear -F EG EO. revert c EG EO. induction F as [|a b r r' H F IH]; intros [|c] E1 E2; try discriminate; cbn [nth_error] in *.
        - replace g with a by congruence. replace g' with b by congruence. exact H.
        - eapply IH; eauto. }
      set (P := place_at h (length pre) (length l1)) in *.
      set (dc := set_cgs (firstn c cgs' ++ skipn c (d3_cgs d)) d) in *.
      set (hc := set_dgs3 h (l1 ++ dc :: l2)) in *.
      assert (AC : Forall2 cg_alike (d3_cgs d) (d3_cgs dc)).
      { cbn [dc set_cgs d3_cgs]. apply only_nof_alike in F. revert F. clear. intros F. revert c.
        induction F as [|a b r r' H F IH]; intros [|c]; cbn [firstn skipn app]; constructor; auto.
        - split; reflexivity. - apply cg_alike_refl. }
      assert (AH : hd_alike h hc).
      { split; [reflexivity|]. cbn [hc set_dgs3 h3_dgs]. rewrite E. apply Forall2_app; [apply dg_alike_refl|].
        constructor; [exact AC|apply dg_alike_refl]. }
      assert (ED : d3_cgs dc = firstn c cgs' ++ g :: skipn (S c) (d3_cgs d)).
      { cbn [dc set_cgs d3_cgs]. rewrite (skipn_at _ _ _ EO). reflexivity. }
      assert (LC : length (firstn c cgs') = c).
      { apply firstn_length_le. assert (c < length cgs')%nat by (apply nth_error_Some; congruence). lia. }
      assert (EW : nth_error ws c = Some ((nth c (places_b (map cg_b (d3_cgs d)) (P + 28)) 0%nat + 22)%nat, le_bytes 4 (g3_nof g'))).
      { unfold ws. unfold dg_places_b.
        rewrite (nth_combine (fun '((p, _), g) => ((p + 22)%nat, le_bytes 4 (g3_nof g))) _ cgs' c g' (0%nat, tt)); [| |exact EG].
        - f_equal. f_equal. f_equal.
          rewrite (nth_error_nth (map (fun '(m, _) => (m, tt)) (combine (places_b (map cg_b (d3_cgs d)) (P + 28)) (d3_cgs d))) c (0%nat, tt) (nth_combine _ _ _ c g 0%nat ltac:(rewrite places_b_length, map_length; reflexivity) EO)).
          reflexivity.
        - rewrite map_length, combine_length, places_b_length, map_length, Nat.min_id. symmetry. exact LL. }
      rewrite (firstn_snoc _ _ _ EW), puts_app, IH. unfold puts. cbn [fold_left].
      pose proof (hd_edit hc l1 dc _ l2 _ _ pre post eq_refl (edit_dg_cg dc (firstn c cgs') g (skipn (S c) (d3_cgs d)) (g3_nof g') ED)) as K.
      cbv beta in K. change (nth (length l1) (places_b (map dg_b (h3_dgs hc)) (dgs_at hc (length pre))) 0%nat) with (place_at hc (length pre) (length l1)) in K.
      rewrite (hd_alike_place h hc _ _ AH) in K. fold P in K. rewrite LC in K.
      destruct (chain_alike _ _ (cgs_alike _ _ AC) (steady_cgs _) (steady_cgs _) (P + 28)) as [EP _]. rewrite EP in K.
      cbv iota. rewrite K. unfold hc, dc. unfold set_dgs3, set_cgs. cbn [h3_time h3_author h3_org h3_project h3_subject h3_comment d3_ids d3_link].
      rewrite (firstn_snoc _ _ _ EG), <- app_assoc. cbn [app]. unfold only_nof in EN. rewrite <- EN. reflexivity.
    + assert (length cgs' <= c)%nat by (apply nth_error_None; exact EG).
      assert (LW : (length ws <= c)%nat).
      { unfold ws. rewrite map_length, combine_length. lia. }
      rewrite !firstn_all2 in * by lia. rewrite !skipn_all2 in * by lia. exact IH.
Qed.

(* ------------------------------------------------------------------ *)
(** ** Records *)

Lemma puts_end : forall bs (f : file) j, puts f (firstn j (seq_writes (length f) bs)) = f ++ concat (firstn j bs).
Proof.
  induction bs as [|b r IH]; intros f j.
  - cbn [seq_writes]. rewrite !firstn_nil. cbn [concat]. rewrite app_nil_r. reflexivity.
  - destruct j as [|j]; [cbn [firstn concat]; rewrite app_nil_r; reflexivity|].
    cbn [seq_writes firstn concat]. rewrite puts_cons.
    assert (EP : put f (length f) b = f ++ b).
    { rewrite put_in by lia. rewrite firstn_all, skipn_all2 by lia. rewrite app_nil_r. reflexivity. }
    rewrite EP. rewrite <- app_length, IH, <- app_assoc. reflexivity.
Qed.

Lemma seq_writes_app : forall a b p, seq_writes p (a ++ b) = seq_writes p a ++ seq_writes (p + length (concat a)) b.
Proof.
  induction a as [|x r IH]; intros b p; cbn [app seq_writes concat length].
  - rewrite Nat.add_0_r. reflexivity.
  - rewrite IH, app_length, Nat.add_assoc. reflexivity.
Qed.

Definition rec_parts (nrid : N) (r : srec) : list (list N) :=
  (if 0 <? nrid then [[w8 (r_id r)]] else []) ++ [r_data r] ++ (if 1 <? nrid then [[w8 (r_id r)]] else []).
Definition recs_parts (nrid : N) (recs : list srec) : list (list N) := concat (map (rec_parts nrid) recs).
(** The bytes of records. *)
Definition bytes3 (nrid : N) (recs : list srec) : list N := concat (map (fun r => put3 nrid (r_id r) (r_data r)) recs).

Lemma rec_parts_put : forall nrid r, concat (rec_parts nrid r) = put3 nrid (r_id r) (r_data r).
Proof.
  intros nrid r. unfold rec_parts, put3. rewrite !concat_app. cbn [concat]. rewrite app_nil_r.
  destruct (0 <? nrid); destruct (1 <? nrid); cbn [concat app]; rewrite ?app_nil_r; reflexivity.
Qed.

Lemma recs_parts_bytes : forall nrid recs, concat (recs_parts nrid recs) = bytes3 nrid recs.
Proof.
  intros nrid recs. unfold recs_parts, bytes3. induction recs as [|r t IH]; [reflexivity|].
  cbn [map concat]. rewrite concat_app, IH, rec_parts_put. reflexivity.
Qed.

Lemma record_writes_seq : forall nrid recs p, record_writes nrid p recs = seq_writes p (recs_parts nrid recs).
Proof.
  intros nrid recs. induction recs as [|r t IH]; intros p; [reflexivity|].
  cbn [record_writes]. unfold recs_parts. cbn [map concat]. fold (rec_parts nrid r). fold (recs_parts nrid t).
  rewrite (seq_writes_app (rec_parts nrid r)), IH, rec_parts_put. reflexivity.
Qed.

Lemma bytes3_app : forall nrid a b, bytes3 nrid (a ++ b) = bytes3 nrid a ++ bytes3 nrid b.
Proof. intros. unfold bytes3. rewrite map_app, concat_app. reflexivity. Qed.

(* ------------------------------------------------------------------ *)
(** ** A save *)

(** A save of data group [k] that has made all its link write, [jr] writes of records and [jc] writes
    of counters. *)
Lemma link_edit : forall h l1 d l2 v (pre post : file), h3_dgs h = l1 ++ d :: l2 ->
  put (pre ++ hd_b h (length pre) ++ post) (place_at h (length pre) (length l1) + 16) (le_bytes 4 (w32 v)) =
  pre ++ hd_b (set_dgs3 h (l1 ++ set_dlink v d :: l2)) (length pre) ++ post.
Proof. intros h l1 d l2 v pre post E. apply (hd_edit h l1 d _ l2 (fun n => (n + 16)%nat) _ pre post E (edit_link d v)). Qed.

Lemma save_edit : forall h l1 d l2 cgs' nrid recs (pre post : file) v jr jc, h3_dgs h = l1 ++ d :: l2 ->
  Forall2 only_nof (d3_cgs d) cgs' ->
  let f := pre ++ hd_b h (length pre) ++ post in
  let P := place_at h (length pre) (length l1) in
  puts (if d3_link d =? 0 then put f (P + 16) (le_bytes 4 (w32 v)) else f)
    (firstn jr (record_writes nrid (length f) recs) ++ firstn jc (cgs3_writes (dg_places_b d P) (set_cgs cgs' d))) =
  pre ++ hd_b (set_dgs3 h (l1 ++ mkDgb3 (d3_ids d) (if d3_link d =? 0 then v else d3_link d) (firstn jc cgs' ++ skipn jc (d3_cgs d)) :: l2)) (length pre)
      ++ post ++ concat (firstn jr (recs_parts nrid recs)).
Proof.
  intros h l1 d l2 cgs' nrid recs pre post v jr jc E F f P.
  set (v' := if d3_link d =? 0 then v else d3_link d).
  assert (E1 : (if d3_link d =? 0 then put f (P + 16) (le_bytes 4 (w32 v)) else f) =
     pre ++ hd_b (set_dgs3 h (l1 ++ set_dlink v' d :: l2)) (length pre) ++ post).
  { unfold v', f, P. destruct (d3_link d =? 0); [apply link_edit; exact E|].
    replace (set_dlink (d3_link d) d) with d by (destruct d; reflexivity). rewrite <- E. destruct h; reflexivity. }
  rewrite E1. set (h1 := set_dgs3 h _).
  assert (AH : hd_alike h h1).
  { split; [reflexivity|]. cbn [h1 set_dgs3 h3_dgs]. rewrite E. apply Forall2_app; [apply dg_alike_refl|].
    constructor; [apply cg_alike_refl|apply dg_alike_refl]. }
  assert (LF : length f = length (pre ++ hd_b h1 (length pre) ++ post)).
  { unfold f. rewrite !app_length. rewrite (proj1 (hd_alike_same h h1 (length pre) AH)). reflexivity. }
  rewrite LF, record_writes_seq, puts_app, puts_end, <- !app_assoc.
  unfold P. rewrite <- (hd_alike_place h h1 _ _ AH).
  change (dg_places_b d) with (dg_places_b (set_dlink v' d)).
  change (set_cgs cgs' d) with (mkDgb3 (d3_ids d) (d3_link d) cgs').
  pose proof (cgs_edit h1 l1 (set_dlink v' d) l2 cgs' pre (post ++ concat (firstn jr (recs_parts nrid recs))) jc eq_refl F) as K.
  rewrite !cgs_writes_nth in *. cbn [set_cgs d3_cgs set_dlink] in *. rewrite K. reflexivity.
Qed.
