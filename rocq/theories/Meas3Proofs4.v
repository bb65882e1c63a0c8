(** The state of an MDF3 measurement after any calls. *)
From Verif Require Import Base BlockModel BlockSpec BlockProofs BlockProofs3 BlockProofs4 StreamModel StreamSpec StreamProofs StreamProofs2 RangeProofs Stream3Model Stream3Proofs
  ConvModel CcModel Cc3Proofs MetaModel MetaProofs
  IdentModel IdentSpec IdentProofs Meta3Model Meta3Spec Meta3Proofs Meta3Proofs2 MeasModel MeasProofs MeasProofs2 MeasProofs4
  Meas3Model Meas3Proofs Meas3Proofs2 Meas3Spec Meas3Proofs3.
Local Open Scope N_scope.

(** ** The specification over one more call *)

Lemma sources3_snoc : forall ops o, sources3 (ops ++ [o]) = sources3 ops ++ match o with Save3 k _ => [k] | _ => [] end.
Proof. intros ops o. unfold sources3. rewrite flat_map_app. cbn [flat_map]. rewrite app_nil_r. reflexivity. Qed.
Lemma saved3_snoc : forall k ops o, saved3 k (ops ++ [o]) =
  saved3 k ops ++ match o with Save3 j recs => if (j =? k)%nat then recs else [] | _ => [] end.
Proof. intros k ops o. unfold saved3. rewrite flat_map_app. cbn [flat_map]. rewrite app_nil_r. reflexivity. Qed.

Lemma saved3_none : forall k ops, ~ In k (sources3 ops) -> saved3 k ops = [].
Proof.
  intros k ops. induction ops as [|o r IH]; intros H; [reflexivity|].
  unfold sources3, saved3 in *. cbn [flat_map] in *. destruct o as [t|j recs|]; cbn [app] in *; auto.
  destruct (Nat.eqb_spec j k) as [->|]; [exfalso; apply H; left; reflexivity|]. apply IH. intros Q. apply H. right. exact Q.
Qed.

Lemma times3_snoc : forall h ops o done mem disk, times3 h done mem disk (ops ++ [o]) =
  let (mem', disk') := times3 h done mem disk ops in
  (match o with Start3 t => if fresh3 h (done ++ ops) then t else mem' | _ => mem' end,
   match o with Final3 => mem' | _ => disk' end).
Proof.
  intros h ops o. induction ops as [|p r IH]; intros done mem disk.
  - cbn [app times3]. rewrite app_nil_r. reflexivity.
  - cbn [app times3]. rewrite IH. rewrite <- app_assoc. reflexivity.
Qed.

Lemma known_snoc : forall h ops o, known_time3 h (ops ++ [o]) =
  match o with Start3 t => if fresh3 h ops then t else known_time3 h ops | _ => known_time3 h ops end.
Proof. intros h ops o. unfold known_time3. rewrite times3_snoc. cbn [app]. destruct (times3 h [] _ _ ops). reflexivity. Qed.
Lemma stored_snoc : forall h ops o, stored_time3 h (ops ++ [o]) =
  match o with Final3 => known_time3 h ops | _ => stored_time3 h ops end.
Proof. intros h ops o. unfold stored_time3, known_time3. rewrite times3_snoc. destruct (times3 h [] _ _ ops). reflexivity. Qed.

Lemma in_turn3_app : forall a b, in_turn3 (a ++ b) -> in_turn3 a.
Proof.
  intros a b H l1 k l2 E. apply (H l1 k (l2 ++ sources3 b)).
  unfold sources3 in *. rewrite flat_map_app, E, <- app_assoc. reflexivity.
Qed.

(* ------------------------------------------------------------------ *)
(** ** The invariant *)

Definition dg_now (recs : list srec) (l : N) (d : dgb3) : dgb3 :=
  mkDgb3 (ids_for d) l (map (cg3_after recs) (d3_cgs d)).

Record inv3 (base : file) (h : hd3) (ops : list op3) (m : meas3) (data : list N) (lk : nat -> N) : Prop := {
  v_file : m3_file m = base ++ hd_b (set_time3 (stored_time3 h ops) (m3_hd m)) (length base) ++ data;
  v_head : m3_head m = length base;
  v_places : m3_places m = hd_places_b (m3_hd m) (length base);
  v_hd : m3_hd m = set_time3 (known_time3 h ops) (set_dgs3 h (h3_dgs (m3_hd m)));
  v_len : length (h3_dgs (m3_hd m)) = length (h3_dgs h);
  v_dgs : forall k d, nth_error (h3_dgs h) k = Some d -> nth_error (h3_dgs (m3_hd m)) k = Some (dg_now (saved3 k ops) (lk k) d);
  v_cnt : forall k id, m3_cnt m k id = occ id (saved3 k ops);
  v_none : forall k, ~ In k (sources3 ops) -> lk k = 0;
  v_data : forall k d, In k (sources3 ops) -> nth_error (h3_dgs h) k = Some d -> exists a b,
    data = a ++ bytes3 (ids_for d) (saved3 k ops) ++ b /\
    lk k = N.of_nat (length base + length (hd_b h (length base)) + length a) /\
    (last (sources3 ops) k = k -> b = [])
}.

Lemma pointwise_alike : forall ds ds', length ds' = length ds ->
  (forall k d, nth_error ds k = Some d -> exists recs l, nth_error ds' k = Some (dg_now recs l d)) -> Forall2 dg_alike ds ds'.
Proof.
  induction ds as [|d r IH]; intros [|d' r'] L H; try discriminate; constructor.
  - destruct (H 0%nat d eq_refl) as (recs & l & E). cbn [nth_error] in E. assert (d' = dg_now recs l d) as -> by congruence.
    unfold dg_alike, dg_now. cbn [d3_cgs]. induction (d3_cgs d); constructor; auto. split; reflexivity.
  - apply IH; [cbn in L; lia|]. intros k x E. exact (H (S k) x E).
Qed.

Lemma inv3_alike : forall base h ops m data lk t, inv3 base h ops m data lk -> hd_alike h (set_time3 t (m3_hd m)).
Proof.
  intros base h ops m data lk t V. split.
  - rewrite (v_hd _ _ _ _ _ _ V). reflexivity.
  - cbn [set_time3 h3_dgs]. apply pointwise_alike; [apply (v_len _ _ _ _ _ _ V)|]. intros k d E. eauto using (v_dgs _ _ _ _ _ _ V).
Qed.

Lemma inv3_alike0 : forall base h ops m data lk, inv3 base h ops m data lk -> hd_alike h (m3_hd m).
Proof. intros base h ops m data lk V. exact (inv3_alike _ _ _ _ _ _ (h3_time (m3_hd m)) V). Qed.

Lemma hd_b_ids : forall h n, hd_b (set_dgs3 h (map set_ids3 (h3_dgs h))) n = hd_b h n.
Proof.
  intros h n. unfold hd_b. rewrite hd3_body_dgs by apply map_length. cbn [set_dgs3 h3_comment h3_dgs].
  rewrite map_map. change (map (fun x => dg_b (set_ids3 x)) (h3_dgs h)) with (map dg_b (h3_dgs h)).
  destruct (h3_dgs h); reflexivity.
Qed.

Lemma inv3_init : forall i h m, new3 h -> init_meas3 i h = Ok m -> inv3 (write_id false i []) h [] m [] (fun _ => 0).
Proof.
  intros i h m NW E. unfold init_meas3, write_file3 in E.
  assert (NE : (0 < length (write_id false i []))%nat) by (rewrite write_id_new, id_bytes_length; lia).
  set (base := write_id false i []) in *. clearbody base.
  rewrite (hd_form3 h base NE) in E. cbn [bind] in E. apply ok_inj in E. subst m.
  rewrite (hd_places_form h base NE).
  assert (ED : forall k d, nth_error (h3_dgs h) k = Some d -> nth_error (map set_ids3 (h3_dgs h)) k = Some (dg_now [] 0 d)).
  { intros k d Hk. rewrite nth_error_map, Hk. cbn [option_map]. f_equal. unfold set_ids3, dg_now.
    apply nth_error_In in Hk. unfold new3 in NW. rewrite Forall_forall in NW. destruct (NW d Hk) as [-> Z]. f_equal.
    symmetry. rewrite <- (map_id (d3_cgs d)) at 2. apply map_ext_in. intros g Hg. rewrite Forall_forall in Z. specialize (Z g Hg).
    destruct g. unfold cg3_after. cbn in *. rewrite Z. reflexivity. }
  assert (AL : hd_alike h (set_dgs3 h (map set_ids3 (h3_dgs h)))).
  { split; [reflexivity|]. cbn [set_dgs3 h3_dgs]. apply pointwise_alike; [apply map_length|]. intros k d Hk. eauto. }
  constructor; cbn [m3_file m3_head m3_places m3_hd m3_cnt].
  - rewrite app_nil_r. f_equal. rewrite <- (hd_b_ids h). destruct h; reflexivity.
  - reflexivity.
  - rewrite (proj2 (hd_alike_same _ _ (length base) AL)). reflexivity.
  - destruct h; reflexivity.
  - apply map_length.
  - intros k d Hk. apply ED. exact Hk.
  - reflexivity.
  - reflexivity.
  - intros k d [].
Qed.

(** ** The check for a first measurement *)
Lemma first_fresh : forall ds ds' ops lk k, length ds' = length ds ->
  (forall i d, nth_error ds i = Some d -> nth_error ds' i = Some (dg_now (saved3 (k + i) ops) (lk (k + i)%nat) d)) ->
  forallb (fun d => forallb (fun g => g3_nof g =? 0) (d3_cgs d)) ds' = fresh_from k ops ds.
Proof.
  induction ds as [|d r IH]; intros [|d' r'] ops lk k L H; try discriminate; [reflexivity|].
  cbn [forallb fresh_from].
  pose proof (H 0%nat d eq_refl) as E. cbn [nth_error] in E. assert (d' = dg_now (saved3 (k + 0) ops) (lk (k + 0)%nat) d) as -> by congruence.
  f_equal.
  - unfold dg_now. cbn [d3_cgs]. rewrite Nat.add_0_r. induction (d3_cgs d) as [|g l IHl]; [reflexivity|].
    cbn [map forallb]. rewrite IHl. reflexivity.
  - apply (IH r' ops lk (S k)); [cbn in L; lia|]. intros i x Hi. replace (S k + i)%nat with (k + S i)%nat by lia. exact (H (S i) x Hi).
Qed.

Lemma inv3_first : forall base h ops m data lk, inv3 base h ops m data lk -> is_first3 (m3_hd m) = fresh3 h ops.
Proof.
  intros base h ops m data lk V. unfold is_first3, fresh3. apply (first_fresh _ _ ops lk 0); [apply (v_len _ _ _ _ _ _ V)|].
  intros i d E. cbn [Nat.add]. apply (v_dgs _ _ _ _ _ _ V). exact E.
Qed.

Lemma inv3_start : forall base h ops m data lk t m' ws, inv3 base h ops m data lk -> call3 (Start3 t) m = Some (ws, m') ->
  ws = [] /\ inv3 base h (ops ++ [Start3 t]) m' data lk.
Proof.
  intros base h ops m data lk t m' ws V E. cbn [call3] in E.
  rewrite (inv3_first _ _ _ _ _ _ V) in E.
  assert (ws = []) as -> by congruence. split; [reflexivity|].
  assert (EH : m' = if fresh3 h ops then mkM3 (m3_file m) (set_time3 t (m3_hd m)) (m3_head m) (m3_places m) (m3_cnt m) else m) by congruence.
  clear E. destruct V as [V1 V2 V3 V4 V5 V6 V7 V8 V9].
  destruct (fresh3 h ops) eqn:FR; subst m'; constructor; cbn [m3_file m3_head m3_places m3_hd m3_cnt set_time3 h3_dgs];
    rewrite ?sources3_snoc, ?stored_snoc, ?known_snoc, ?app_nil_r, ?FR; auto.
  - rewrite V4 at 1. reflexivity.
  - intros k d Hk. rewrite saved3_snoc, app_nil_r. auto.
  - intros k id. rewrite saved3_snoc, app_nil_r. auto.
  - intros k d I Hk. rewrite saved3_snoc, app_nil_r. auto.
  - intros k d Hk. rewrite saved3_snoc, app_nil_r. auto.
  - intros k id. rewrite saved3_snoc, app_nil_r. auto.
  - intros k d I Hk. rewrite saved3_snoc, app_nil_r. auto.
Qed.

(** ** A save, up to any write *)

Lemma count_after : forall recs S c g, (forall id, c id = occ id S) -> count_cg3 recs c (cg3_after S g) = cg3_after (S ++ recs) g.
Proof.
  intros recs S c g C. unfold count_cg3, cg3_after. cbn [g3_id g3_size g3_nof g3_sr g3_cns g3_comment]. f_equal.
  unfold count_recs. rewrite C, occ_app. destruct (existsb (fun r => r_id r =? g3_id g) recs) eqn:X; [reflexivity|].
  assert (occ (g3_id g) recs = 0) as ->; [|rewrite N.add_0_r; reflexivity].
  clear -X. induction recs as [|r t IH]; [reflexivity|]. cbn [existsb] in X. apply orb_false_iff in X. destruct X as [X1 X2].
  rewrite occ_cons, X1. rewrite IH by exact X2. reflexivity.
Qed.

Lemma after_only_nof : forall S S' l, Forall2 only_nof (map (cg3_after S) l) (map (cg3_after S') l).
Proof. intros S S' l. induction l; cbn [map]; constructor; auto. reflexivity. Qed.

(** The file after some writes of a save: [lnk] whether the link is written. *)
Definition stopped_hd (hm : hd3) (l1 : list dgb3) (d : dgb3) (l2 : list dgb3) (lnk : N) (S recs : list srec) (jc : nat) : hd3 :=
  set_dgs3 hm (l1 ++ mkDgb3 (ids_for d) lnk (firstn jc (map (cg3_after (S ++ recs)) (d3_cgs d)) ++ skipn jc (map (cg3_after S) (d3_cgs d))) :: l2).

Lemma seq_writes_length : forall bs p, length (seq_writes p bs) = length bs.
Proof. induction bs as [|b r IH]; intros p; [reflexivity|]. cbn [seq_writes length]. rewrite IH. reflexivity. Qed.

Lemma save3_stopped : forall base h ops m data lk k recs m' ws d, inv3 base h ops m data lk ->
  call3 (Save3 k recs) m = Some (ws, m') -> nth_error (h3_dgs h) k = Some d ->
  exists l1 l2, h3_dgs (m3_hd m) = l1 ++ dg_now (saved3 k ops) (lk k) d :: l2 /\ length l1 = k /\
    let v := if lk k =? 0 then N.of_nat (length (m3_file m)) else lk k in
    let hm := set_time3 (stored_time3 h ops) (m3_hd m) in
    m3_hd m' = stopped_hd (m3_hd m) l1 d l2 v (saved3 k ops) recs (length (d3_cgs d)) /\
    m3_head m' = m3_head m /\ m3_places m' = m3_places m /\
    m3_cnt m' = (fun j => if (j =? k)%nat then count_recs recs (m3_cnt m k) else m3_cnt m j) /\
    m3_file m' = base ++ hd_b (set_time3 (stored_time3 h ops) (m3_hd m')) (length base) ++ data ++ bytes3 (ids_for d) recs /\
    forall j, puts (m3_file m) (firstn j ws) = m3_file m \/
      exists jc part rest, part ++ rest = bytes3 (ids_for d) recs /\ (jc = 0%nat \/ rest = []) /\
        puts (m3_file m) (firstn j ws) =
          base ++ hd_b (stopped_hd hm l1 d l2 v (saved3 k ops) recs jc) (length base) ++ data ++ part.
Proof.
  intros base h ops m data lk k recs m' ws d V E Hk.
  pose proof (v_dgs _ _ _ _ _ _ V k d Hk) as HD.
  destruct (nth_error_split _ _ HD) as (l1 & l2 & EL & LK). exists l1, l2. split; [exact EL|]. split; [exact LK|]. cbv zeta.
  set (v := if lk k =? 0 then _ else _). set (hm := set_time3 _ (m3_hd m)).
  set (D := dg_now (saved3 k ops) (lk k) d) in *. set (S := saved3 k ops) in *.
  cbn [call3] in E. unfold save3 in E. rewrite HD in E.
  rewrite (v_places _ _ _ _ _ _ V), (hd_place_at _ _ _ _ HD) in E.
  set (P := place_at (m3_hd m) (length base) k) in *.
  set (cgs' := map (cg3_after (S ++ recs)) (d3_cgs d)).
  assert (EC : map (count_cg3 recs (m3_cnt m k)) (d3_cgs D) = cgs').
  { unfold D, dg_now, cgs'. cbn [d3_cgs]. rewrite map_map. apply map_ext. intros g. apply count_after. intros id. apply (v_cnt _ _ _ _ _ _ V). }
  rewrite EC in E. change (d3_link D) with (lk k) in E. change (d3_ids D) with (ids_for d) in E. fold v in E.
  set (A := if lk k =? 0 then [((P + 16)%nat, le_bytes 4 (w32 v))] else []) in E.
  set (B := record_writes (ids_for d) (length (m3_file m)) recs) in E.
  set (C := cgs3_writes (dg_places_b D P) _) in E.
  assert (EW : ws = A ++ B ++ C) by congruence.
  assert (EM : m' = mkM3 (puts (m3_file m) ws) (set_dgs3 (m3_hd m) (upd_nth k (fun _ => mkDgb3 (ids_for d) v cgs') (h3_dgs (m3_hd m))))
     (m3_head m) (hd_places_b (m3_hd m) (length base)) (fun j => if (j =? k)%nat then count_recs recs (m3_cnt m k) else m3_cnt m j)) by congruence.
  clear E.
  assert (PA : puts (m3_file m) A = if lk k =? 0 then put (m3_file m) (P + 16) (le_bytes 4 (w32 v)) else m3_file m).
  { unfold A. destruct (lk k =? 0); reflexivity. }
  assert (K : forall jr jc, puts (puts (m3_file m) A) (firstn jr B ++ firstn jc C) =
     base ++ hd_b (stopped_hd hm l1 d l2 v S recs jc) (length base) ++ data ++ concat (firstn jr (recs_parts (ids_for d) recs))).
  { intros jr jc. rewrite PA.
    pose proof (save_edit hm l1 D l2 cgs' (ids_for d) recs base data v jr jc EL (after_only_nof S (S ++ recs) (d3_cgs d))) as K.
    cbv zeta in K. rewrite <- (v_file _ _ _ _ _ _ V : m3_file m = base ++ hd_b hm (length base) ++ data) in K.
    change (d3_link D) with (lk k) in K.
    assert (EP : place_at hm (length base) (length l1) = P) by (rewrite LK; reflexivity). rewrite EP in K.
    fold B in K. 
    assert (ECW : cgs3_writes (dg_places_b D P) (set_cgs cgs' D) = C) by (unfold C; rewrite !cgs_writes_nth; reflexivity).
    rewrite ECW in K. rewrite K. unfold stopped_hd.
    assert (EV : (if lk k =? 0 then v else lk k) = v) by (unfold v; destruct (lk k =? 0); reflexivity).
    rewrite EV. reflexivity. }
  assert (EU : upd_nth k (fun _ => mkDgb3 (ids_for d) v cgs') (h3_dgs (m3_hd m)) = l1 ++ mkDgb3 (ids_for d) v cgs' :: l2).
  { rewrite EL, <- LK. apply upd_split. }
  assert (EJ : mkDgb3 (ids_for d) v (firstn (length (d3_cgs d)) cgs' ++ skipn (length (d3_cgs d)) (map (cg3_after S) (d3_cgs d))) = mkDgb3 (ids_for d) v cgs').
  { rewrite firstn_all2, skipn_all2 by (unfold cgs'; rewrite map_length; lia). rewrite app_nil_r. reflexivity. }
  assert (EF : puts (m3_file m) ws = base ++ hd_b (set_dgs3 hm (l1 ++ mkDgb3 (ids_for d) v cgs' :: l2)) (length base) ++ data ++ bytes3 (ids_for d) recs).
  { rewrite EW, puts_app. specialize (K (length B + length (recs_parts (ids_for d) recs))%nat (length C + length (d3_cgs d))%nat).
    rewrite !firstn_all2 in K by lia. rewrite K, recs_parts_bytes. unfold stopped_hd.
    rewrite firstn_all2, skipn_all2 by (rewrite map_length; lia). rewrite app_nil_r. reflexivity. }
  rewrite EM. cbn [m3_hd m3_head m3_places m3_cnt m3_file]. rewrite EU.
  split; [unfold stopped_hd; fold cgs'; rewrite EJ; reflexivity|].
  split; [reflexivity|]. split; [symmetry; apply (v_places _ _ _ _ _ _ V)|]. split; [reflexivity|]. split; [exact EF|].
  intros j. rewrite EW, !firstn_app, !puts_app, <- puts_app.
  destruct (le_lt_dec (length A) j) as [LA|LA].
  - right. rewrite (firstn_all2 A) by exact LA. rewrite K.
    set (jc := (j - length A - length B)%nat). set (jr := (j - length A)%nat).
    exists jc, (concat (firstn jr (recs_parts (ids_for d) recs))), (concat (skipn jr (recs_parts (ids_for d) recs))).
    split; [rewrite <- concat_app, firstn_skipn; apply recs_parts_bytes|]. split; [|reflexivity].
    destruct (Nat.eq_dec jc 0) as [Z|Z]; [left; exact Z|]. right.
    rewrite skipn_all2; [reflexivity|]. unfold jc, jr in *.
    assert (LB : length B = length (recs_parts (ids_for d) recs)).
    { unfold B. rewrite record_writes_seq. apply seq_writes_length. }
    lia.
  - left. replace (j - length A)%nat with 0%nat by lia. replace (0 - length B)%nat with 0%nat by lia.
    assert (Z : j = 0%nat) by (unfold A in LA; destruct (lk k =? 0); cbn [length] in LA; lia). rewrite Z. reflexivity.
Qed.
