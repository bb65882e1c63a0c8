(** MDF3 records: specification and proofs. *)
From Verif Require Import Base StreamModel StreamSpec StreamProofs StreamProofs2 RangeProofs Stream3Model.
Local Open Scope N_scope.

(** The MDF3 encoding of a record: an optional record id byte before and after the data. *)
Definition enc3 (d : dg3) (r : srec) : list N :=
  (if 0 <? t_nrid d then [r_id r] else []) ++ r_data r ++ (if t_nrid d =? 2 then [r_id r] else []).

Definition stream3 (d : dg3) (recs : list srec) : list N := concat (map (enc3 d) recs).

Record dg3_ok (d : dg3) : Prop := {
  d3_some : t_groups d <> [];
  d3_ids : NoDup (map h_id (t_groups d));
  d3_nrid : In (t_nrid d) [0; 1; 2];
  d3_single : t_nrid d = 0 -> exists g, t_groups d = [g] /\ h_id g = 0;
  d3_size : forall g, In g (t_groups d) -> (0 < h_size g)%nat
}.

Definition rec3_ok (d : dg3) (r : srec) : Prop :=
  exists g, In g (t_groups d) /\ h_id g = r_id r /\ length (r_data r) = h_size g.

(** Each group's number of records is the number of its records in the stream. *)
Definition counts3 (d : dg3) (recs : list srec) : Prop :=
  forall g, In g (t_groups d) -> h_nof g = occ (h_id g) recs.

(** All records, numbered within their group. *)
Fixpoint numbered (sub : N -> bool) (prev recs : list srec) : list event :=
  match recs with
  | [] => []
  | r :: t => (if sub (r_id r) then [Ev (occ (r_id r) prev) (r_id r) (r_data r)] else [])
              ++ numbered sub (prev ++ [r]) t
  end.

Lemma find3_in : forall l g, NoDup (map h_id l) -> In g l ->
  find (fun h => h_id h =? h_id g) l = Some g.
Proof.
  induction l as [|h r IH]; intros g H Hin; [destruct Hin|].
  cbn [map] in H. inversion H as [|? ? Hni Hnd]; subst. cbn [find].
  destruct Hin as [->|Hin]; [rewrite N.eqb_refl; reflexivity|].
  destruct (N.eqb_spec (h_id h) (h_id g)).
  - exfalso. apply Hni. rewrite e. apply in_map; auto.
  - apply IH; auto.
Qed.

Lemma find_cg3_in : forall d g, dg3_ok d -> In g (t_groups d) -> find_cg3 d (h_id g) = Some g.
Proof.
  intros d g H Hin. unfold find_cg3.
  pose proof (find3_in _ _ (d3_ids _ H) Hin) as F.
  destruct (t_groups d) as [|a [|b r]] eqn:E; auto. destruct Hin as [->|[]]. reflexivity.
Qed.

Lemma group3_eq : forall d g h, dg3_ok d -> In g (t_groups d) -> In h (t_groups d) ->
  h_id g = h_id h -> g = h.
Proof.
  intros d g h H G1 G2 E.
  pose proof (find3_in _ _ (d3_ids _ H) G1) as F1.
  pose proof (find3_in _ _ (d3_ids _ H) G2) as F2. rewrite <- E in F2. congruence.
Qed.

Lemma nrid_cases : forall d, dg3_ok d -> t_nrid d = 0 \/ t_nrid d = 1 \/ t_nrid d = 2.
Proof. intros d H. pose proof (d3_nrid _ H) as I. cbn in I. lia. Qed.

(** The id the reader works with and the state after the optional leading byte. *)
Lemma lead_id : forall d g s rest, dg3_ok d -> In g (t_groups d) ->
  s3_rest s = (if 0 <? t_nrid d then [h_id g] else []) ++ rest ->
  exists s1, (if (t_nrid d =? 1) || (t_nrid d =? 2) then read_id3 s else Some (0, s))
             = Some (h_id g, s1) /\
    s3_rest s1 = rest /\ s3_cnt s1 = s3_cnt s /\ s3_log s1 = s3_log s /\
    s3_count s1 = s3_count s + (if 0 <? t_nrid d then 1 else 0).
Proof.
  intros d g s rest H Hin E. destruct (nrid_cases d H) as [Z|[Z|Z]]; rewrite Z in *; cbn in E |- *.
  - destruct (d3_single _ H Z) as (g1 & E1 & E2). rewrite E1 in Hin. destruct Hin as [->|[]].
    rewrite E2. exists s. repeat split; auto. lia.
  - unfold read_id3. rewrite E. eexists. split; [reflexivity|]. cbn. auto.
  - unfold read_id3. rewrite E. eexists. split; [reflexivity|]. cbn. auto.
Qed.

Lemma sgetn_exact : forall data rest,
  sgetn (length data) (data ++ rest) = (data, length data, rest).
Proof.
  intros. unfold sgetn. rewrite firstn_app, Nat.sub_diag, firstn_O, app_nil_r, firstn_all.
  rewrite Nat.sub_diag. cbn [repeat]. rewrite app_nil_r.
  rewrite skipn_app, Nat.sub_diag, skipn_all. reflexivity.
Qed.

Lemma enc3_length : forall d r g, dg3_ok d -> length (r_data r) = h_size g ->
  N.of_nat (length (enc3 d r)) = t_nrid d + N.of_nat (h_size g).
Proof.
  intros d r g H E. unfold enc3. rewrite !app_length, E.
  destruct (nrid_cases d H) as [Z|[Z|Z]]; rewrite Z;
    [change (0 <? 0) with false; change (0 =? 2) with false
    |change (0 <? 1) with true; change (1 =? 2) with false
    |change (0 <? 2) with true; change (2 =? 2) with true]; cbn [length]; lia.
Qed.

Definition cnt3 (d : dg3) (cnt : N -> N) (prev : list srec) : Prop :=
  forall g, In g (t_groups d) -> cnt (h_id g) = occ (h_id g) prev.

Lemma cnt3_upd : forall d cnt prev r g, dg3_ok d -> In g (t_groups d) -> h_id g = r_id r ->
  cnt3 d cnt prev -> cnt3 d (upd cnt (h_id g) (occ (h_id g) prev + 1)) (prev ++ [r]).
Proof.
  intros d cnt prev r g H Hin E C h Hh. unfold upd. rewrite occ_snoc, <- E, (N.eqb_sym (h_id g)).
  destruct (N.eqb_spec (h_id h) (h_id g)) as [Q|Q].
  - rewrite Q. reflexivity.
  - rewrite (C h Hh). lia.
Qed.

Lemma step3_one : forall d verdict s prev r rest, dg3_ok d -> rec3_ok d r ->
  (forall g, In g (t_groups d) -> h_id g = r_id r -> occ (h_id g) prev < h_nof g) ->
  s3_rest s = enc3 d r ++ rest -> cnt3 d (s3_cnt s) prev ->
  exists s', step3 d verdict s = (verdict (Ev (occ (r_id r) prev) (r_id r) (r_data r)), s') /\
    s3_log s' = s3_log s ++ [Ev (occ (r_id r) prev) (r_id r) (r_data r)] /\
    (verdict (Ev (occ (r_id r) prev) (r_id r) (r_data r)) = true ->
      s3_rest s' = rest /\ cnt3 d (s3_cnt s') (prev ++ [r]) /\
      s3_count s' = s3_count s + N.of_nat (length (enc3 d r))).
Proof.
  intros d verdict s prev r rest H R NF E C.
  destruct R as (g & Hin & Eid & EL). specialize (NF g Hin Eid).
  rewrite (enc3_length d r g H EL). unfold enc3 in E. rewrite <- Eid, <- !app_assoc in E.
  destruct (lead_id d g s _ H Hin E) as (s1 & E1 & R1 & C1 & L1 & N1).
  unfold step3. rewrite E1. rewrite (find_cg3_in _ _ H Hin).
  unfold read_record3. rewrite <- EL, R1, sgetn_exact, C1, (C g Hin).
  replace (occ (h_id g) prev <? h_nof g) with true by lia.
  rewrite L1, <- Eid.
  pose proof (d3_size _ H g Hin) as P.
  set (e := Ev (occ (h_id g) prev) (h_id g) (r_data r)).
  destruct (verdict e) eqn:V.
  - replace (length (r_data r) =? 0)%nat with false by lia.
    unfold add_count. cbn [s3_rest s3_count s3_cnt s3_log].
    destruct (nrid_cases d H) as [Z|[Z|Z]]; rewrite Z in *; cbn [N.eqb Pos.eqb].
    + eexists. split; [reflexivity|]. cbn [s3_rest s3_count s3_cnt s3_log] in *. split; [reflexivity|].
      intros _. repeat split; auto.
      * apply cnt3_upd; auto.
      * change (0 <? 0) with false in N1; cbv iota in N1. rewrite EL. lia.
    + eexists. split; [reflexivity|]. cbn [s3_rest s3_count s3_cnt s3_log] in *. split; [reflexivity|].
      intros _. repeat split; auto.
      * apply cnt3_upd; auto.
      * change (0 <? 1) with true in N1; cbv iota in N1. rewrite EL. lia.
    + unfold read_id3. cbn [s3_rest app]. eexists. split; [reflexivity|].
      cbn [s3_rest s3_count s3_cnt s3_log] in *. split; [reflexivity|].
      intros _. repeat split; auto.
      * apply cnt3_upd; auto.
      * change (0 <? 2) with true in N1; cbv iota in N1. rewrite EL. lia.
  - cbn [Nat.eqb]. eexists. split; [reflexivity|]. cbn [s3_log]. split; [reflexivity|]. discriminate.
Qed.

Lemma enc3_pos : forall d r, dg3_ok d -> rec3_ok d r -> (0 < length (enc3 d r))%nat.
Proof.
  intros d r H (g & Hin & _ & EL). pose proof (enc3_length d r g H EL).
  pose proof (d3_size _ H g Hin). lia.
Qed.

Lemma loop3_ok : forall recs d verdict size s prev fuel rest, dg3_ok d ->
  Forall (rec3_ok d) recs ->
  (forall g, In g (t_groups d) -> occ (h_id g) (prev ++ recs) <= h_nof g) ->
  s3_rest s = stream3 d recs ++ rest -> cnt3 d (s3_cnt s) prev ->
  s3_count s + N.of_nat (length (stream3 d recs)) = size ->
  (length (stream3 d recs) < fuel)%nat ->
  loop3 d verdict size fuel s =
  Some (s3_log s ++ upto verdict (numbered (fun _ => true) prev recs)).
Proof.
  induction recs as [|r t IH]; intros d verdict size s prev fuel rest H F NF E C M L.
  - destruct fuel; [lia|]. cbn [loop3]. cbn [stream3 map concat length] in M.
    replace (size <=? s3_count s) with true by lia. cbn. rewrite app_nil_r. reflexivity.
  - apply Forall_cons_iff in F as [HR HF].
    change (stream3 d (r :: t)) with (enc3 d r ++ stream3 d t) in *. rewrite app_length in *.
    rewrite <- app_assoc in E.
    pose proof (enc3_pos d r H HR) as P.
    destruct (step3_one d verdict s prev r (stream3 d t ++ rest) H HR) as (s1 & E1 & L1 & K); auto.
    { intros g Hin Eid. specialize (NF g Hin). rewrite occ_app, occ_cons, <- Eid, N.eqb_refl in NF. lia. }
    destruct fuel as [|fuel]; [lia|]. cbn [loop3].
    replace (size <=? s3_count s) with false by lia. rewrite E1.
    cbn [numbered app upto].
    set (e := Ev (occ (r_id r) prev) (r_id r) (r_data r)) in *.
    destruct (verdict e).
    + destruct (K eq_refl) as (R1 & C1 & N1).
      rewrite (IH d verdict size s1 (prev ++ [r]) fuel rest); auto; try lia.
      * rewrite L1, <- app_assoc. reflexivity.
      * intros g Hin. rewrite <- app_assoc. apply NF; auto.
    + rewrite L1. reflexivity.
Qed.

(** The data size computed from the counters is the length of the stream. *)
Lemma size_sum_upd : forall (l : list group3) nr (f f' : N -> N) g, NoDup (map h_id l) -> In g l ->
  (forall i, i <> h_id g -> f' i = f i) -> f' (h_id g) = f (h_id g) + 1 ->
  fold_right (fun g acc => (nr + N.of_nat (h_size g)) * f' (h_id g) + acc) 0 l =
  fold_right (fun g acc => (nr + N.of_nat (h_size g)) * f (h_id g) + acc) 0 l + (nr + N.of_nat (h_size g)).
Proof.
  induction l as [|h r IH]; intros nr f f' g ND Hin Ho He; [destruct Hin|].
  cbn [map] in ND. inversion ND as [|? ? Hni Hnd]; subst. cbn [fold_right].
  destruct Hin as [->|Hin].
  - rewrite He. 
    assert (K : fold_right (fun g acc => (nr + N.of_nat (h_size g)) * f' (h_id g) + acc) 0 r =
                fold_right (fun g acc => (nr + N.of_nat (h_size g)) * f (h_id g) + acc) 0 r).
    { clear IH Hnd ND. induction r as [|x r IHr]; [reflexivity|]. cbn [fold_right].
      rewrite IHr by (intros C; apply Hni; right; auto).
      rewrite Ho; [reflexivity|]. intros C. apply Hni. left. exact C. }
    rewrite K. lia.
  - rewrite (IH nr f f' g Hnd Hin Ho He). rewrite Ho; [lia|].
    intros C. apply Hni. rewrite C. apply in_map; auto.
Qed.

Lemma size_sum_zero : forall (l : list group3) nr,
  fold_right (fun g acc => (nr + N.of_nat (h_size g)) * 0 + acc) 0 l = 0.
Proof. induction l; intros; [reflexivity|]. cbn [fold_right]. rewrite IHl. lia. Qed.

Lemma stream3_size : forall recs d, dg3_ok d -> Forall (rec3_ok d) recs ->
  fold_right (fun g acc => (t_nrid d + N.of_nat (h_size g)) * occ (h_id g) recs + acc) 0 (t_groups d)
  = N.of_nat (length (stream3 d recs)).
Proof.
  induction recs as [|r t IH]; intros d H F.
  - apply size_sum_zero.
  - apply Forall_cons_iff in F as [(g & Hin & Eid & EL) HF].
    change (stream3 d (r :: t)) with (enc3 d r ++ stream3 d t). rewrite app_length.
    pose proof (enc3_length d r g H EL) as LE.
    rewrite (size_sum_upd _ _ (fun i => occ i t) (fun i => occ i (r :: t)) g);
      [rewrite IH by auto; lia| apply H | auto | |].
    + intros i Hi. rewrite occ_cons, <- Eid. destruct (N.eqb_spec (h_id g) i); [congruence|lia].
    + rewrite occ_cons, <- Eid, N.eqb_refl. lia.
Qed.

Lemma data_size3_ok : forall d recs, dg3_ok d -> Forall (rec3_ok d) recs -> counts3 d recs ->
  data_size3 d = N.of_nat (length (stream3 d recs)).
Proof.
  intros d recs H F C. rewrite <- (stream3_size recs d H F). unfold data_size3.
  assert (K : forall l, (forall g, In g l -> In g (t_groups d)) ->
    fold_right (fun g acc => (t_nrid d + N.of_nat (h_size g)) * h_nof g + acc) 0 l =
    fold_right (fun g acc => (t_nrid d + N.of_nat (h_size g)) * occ (h_id g) recs + acc) 0 l).
  { induction l as [|g r IH]; intros Hl; [reflexivity|]. cbn [fold_right].
    rewrite IH by (intros; apply Hl; right; auto). rewrite (C g) by (apply Hl; left; auto). reflexivity. }
  apply K. auto.
Qed.

Lemma read3_ok : forall d verdict recs fuel pre post, dg3_ok d -> Forall (rec3_ok d) recs ->
  counts3 d recs -> t_link d = length pre -> (length (stream3 d recs) < fuel)%nat ->
  read_data3 d verdict fuel (pre ++ stream3 d recs ++ post) =
  Some (upto verdict (numbered (fun _ => true) [] recs)).
Proof.
  intros d verdict recs fuel pre post H F C EL L. unfold read_data3.
  rewrite (data_size3_ok d recs H F C).
  rewrite (loop3_ok recs d verdict _ _ [] fuel post); auto.
  - intros g Hin. cbn [app]. rewrite (C g Hin). lia.
  - cbn [s3_rest]. rewrite EL, skipn_app, Nat.sub_diag, skipn_all. reflexivity.
  - intros g Hin. reflexivity.
Qed.

(* ------------------------------------------------------------------ *)
(** ** Range reading *)

Section R3.
Context (d : dg3) (sub : N -> bool) (verdict : event -> bool) (mn mxs : N).

Definition uinv3 (u : used_map) (prev : list srec) : Prop :=
  forall g, In g (t_groups d) ->
    (u (h_id g) = true -> sub (h_id g) = true) /\
    (u (h_id g) = false -> sub (h_id g) = false \/ h_nof g < mn \/ mxs < occ (h_id g) prev + 1).

Definition evr3 (prev : list srec) (r : srec) : list event :=
  filter (in_range mn mxs)
    (if sub (r_id r) then [Ev (occ (r_id r) prev) (r_id r) (r_data r)] else []).

Lemma uinv3_mono : forall u prev r, uinv3 u prev -> uinv3 u (prev ++ [r]).
Proof.
  intros u prev r U g Hin. destruct (U g Hin) as [U1 U2]. split; auto.
  intros E. destruct (U2 E) as [K|[K|K]]; auto. right; right. rewrite occ_snoc.
  destruct (r_id r =? h_id g); lia.
Qed.

Lemma ready3_nothing : forall recs u prev, dg3_ok d -> Forall (rec3_ok d) recs ->
  (forall g, In g (t_groups d) -> occ (h_id g) (prev ++ recs) <= h_nof g) ->
  uinv3 u prev -> range_ready3 d u = true ->
  filter (in_range mn mxs) (numbered sub prev recs) = [].
Proof.
  induction recs as [|r t IH]; intros u prev H F NF U R; [reflexivity|].
  apply Forall_cons_iff in F as [HR HF].
  cbn [numbered]. rewrite filter_app.
  rewrite (IH u (prev ++ [r]) H HF); auto using uinv3_mono.
  2:{ intros g Hin. rewrite <- app_assoc. apply NF; auto. }
  rewrite app_nil_r.
  destruct HR as (g & Hin & E & _). rewrite <- E.
  unfold range_ready3 in R. rewrite forallb_forall in R. specialize (R g Hin).
  apply negb_true_iff in R. destruct (U g Hin) as [_ U2].
  destruct (sub (h_id g)) eqn:S; [|reflexivity].
  cbn [filter]. unfold in_range; cbn [e_sample].
  specialize (NF g Hin). rewrite occ_app, occ_cons, <- E, N.eqb_refl in NF.
  destruct (U2 R) as [K|[K|K]]; [congruence| |].
  - replace (mn <=? occ (h_id g) prev + 1) with false by lia. reflexivity.
  - replace (occ (h_id g) prev + 1 <=? mxs) with false by lia. rewrite andb_false_r. reflexivity.
Qed.

Lemma range_step3_one : forall s u prev r rest, dg3_ok d -> rec3_ok d r ->
  (forall g, In g (t_groups d) -> h_id g = r_id r -> occ (h_id g) prev < h_nof g) ->
  s3_rest s = enc3 d r ++ rest -> cnt3 d (s3_cnt s) prev -> uinv3 u prev ->
  exists c s' u', range_step3 d verdict mn mxs s u = (c, s', u') /\
    c = forallb verdict (evr3 prev r) && negb (range_ready3 d u') /\
    s3_log s' = s3_log s ++ evr3 prev r /\
    (forallb verdict (evr3 prev r) = true ->
      s3_rest s' = rest /\ cnt3 d (s3_cnt s') (prev ++ [r]) /\ uinv3 u' (prev ++ [r]) /\
      s3_count s' = s3_count s + N.of_nat (length (enc3 d r))).
Proof.
  intros s u prev r rest H R NF E C U.
  destruct R as (g & Hin & Eid & EL). specialize (NF g Hin Eid).
  rewrite (enc3_length d r g H EL). unfold enc3 in E. rewrite <- Eid, <- !app_assoc in E.
  destruct (lead_id d g s _ H Hin E) as (s1 & E1 & R1 & C1 & L1 & N1).
  assert (IM : in_range_map3 d (h_id g) = true).
  { unfold in_range_map3. apply existsb_exists. exists g. split; auto. apply N.eqb_refl. }
  unfold range_step3. rewrite E1. rewrite (find_cg3_in _ _ H Hin), IM. cbn [negb].
  unfold read_range_record3. rewrite C1, (C g Hin).
  destruct (U g Hin) as [U1 U2]. pose proof (uinv3_mono _ _ r U) as UM.
  pose proof (d3_size _ H g Hin) as P.
  unfold evr3. rewrite <- Eid.
  (* common tail of a successful step *)
  assert (TAIL : forall cnt log u',
    s3_count s1 = s3_count s + (if 0 <? t_nrid d then 1 else 0) ->
    exists c s', 
    (if t_nrid d =? 2
     then match read_id3 (add_count (mkS3 ((if t_nrid d =? 2 then [h_id g] else []) ++ rest) (s3_count s1) cnt log) (h_size g)) with
          | Some (_, s4) => (negb (range_ready3 d u'), s4, u')
          | None => (false, add_count (mkS3 ((if t_nrid d =? 2 then [h_id g] else []) ++ rest) (s3_count s1) cnt log) (h_size g), u')
          end
     else (negb (range_ready3 d u'), add_count (mkS3 ((if t_nrid d =? 2 then [h_id g] else []) ++ rest) (s3_count s1) cnt log) (h_size g), u'))
    = (c, s', u') /\ c = negb (range_ready3 d u') /\ s3_rest s' = rest /\ s3_cnt s' = cnt /\ s3_log s' = log /\
      s3_count s' = s3_count s + (t_nrid d + N.of_nat (h_size g))).
  { intros cnt log u' NC. destruct (nrid_cases d H) as [Z|[Z|Z]]; rewrite Z in *; cbn [N.eqb Pos.eqb app];
      unfold add_count, read_id3; cbn [s3_rest s3_count s3_cnt s3_log];
      eexists; eexists; (split; [reflexivity|]); cbn [s3_rest s3_count s3_cnt s3_log];
      repeat split; auto; rewrite NC.
    - change (0 <? 0) with false; cbv iota. lia.
    - change (0 <? 1) with true; cbv iota. lia.
    - change (0 <? 2) with true; cbv iota. lia. }
  destruct (negb (u (h_id g)) || (occ (h_id g) prev + 1 <? mn) || (mxs <? occ (h_id g) prev + 1)) eqn:SK.
  - assert (EV : filter (in_range mn mxs) (if sub (h_id g) then [Ev (occ (h_id g) prev) (h_id g) (r_data r)] else []) = []).
    { destruct (sub (h_id g)) eqn:ES; [|reflexivity].
      cbn [filter]. unfold in_range; cbn [e_sample].
      replace ((mn <=? occ (h_id g) prev + 1) && (occ (h_id g) prev + 1 <=? mxs)) with false; [reflexivity|].
      symmetry. destruct (u (h_id g)); cbn [negb orb] in SK; [lia|].
      destruct (U2 eq_refl) as [Q|[Q|Q]]; [discriminate|lia|lia]. }
    rewrite EV. cbn [forallb andb].
    replace (h_size g =? 0)%nat with false by lia.
    replace (occ (h_id g) prev <? h_nof g) with true by lia.
    rewrite R1. rewrite skipn_app.
    replace (h_size g - length (r_data r))%nat with 0%nat by lia.
    rewrite skipn_all2 by lia. cbn [app]. rewrite skipn_O, L1.
    set (u' := if mxs <? occ (h_id g) prev + 1 then updb u (h_id g) false else u).
    destruct (TAIL (upd (s3_cnt s) (h_id g) (occ (h_id g) prev + 1)) (s3_log s) u' N1)
      as (c & s' & T1 & T2 & T3 & T4 & T5 & T6).
    exists c, s', u'. split; [exact T1|]. split; [exact T2|]. rewrite T5, app_nil_r. split; [reflexivity|].
    intros _. rewrite T4. repeat split; auto.
    + apply cnt3_upd; auto.
    + unfold u'. destruct (N.ltb_spec mxs (occ (h_id g) prev + 1)) as [Q|Q]; [|apply UM; auto].
      unfold updb. destruct (N.eqb_spec (h_id g0) (h_id g)); [discriminate|apply UM; auto].
    + unfold u'. destruct (N.ltb_spec mxs (occ (h_id g) prev + 1)) as [Q|Q]; [|apply UM; auto].
      unfold updb. destruct (N.eqb_spec (h_id g0) (h_id g)) as [W|W]; [|apply UM; auto].
      intros _. right; right. rewrite W, occ_snoc. destruct (r_id r =? h_id g); lia.
  - destruct (u (h_id g)) eqn:EU; cbn [negb orb] in SK; [|discriminate].
    rewrite (U1 eq_refl). cbn [filter].
    assert (IR : in_range mn mxs (Ev (occ (h_id g) prev) (h_id g) (r_data r)) = true).
    { unfold in_range; cbn [e_sample]. lia. }
    rewrite IR. cbn [forallb]. rewrite andb_true_r.
    assert (SG : sgetn (h_size g) (s3_rest s1) =
      (r_data r, h_size g, (if t_nrid d =? 2 then [h_id g] else []) ++ rest)).
    { rewrite R1, <- EL. apply sgetn_exact. }
    unfold read_record3. rewrite SG, C1, (C g Hin).
    replace (occ (h_id g) prev <? h_nof g) with true by lia.
    set (e := Ev (occ (h_id g) prev) (h_id g) (r_data r)).
    destruct (verdict e) eqn:V.
    + replace (h_size g =? 0)%nat with false by lia. rewrite L1.
      destruct (TAIL (upd (s3_cnt s) (h_id g) (occ (h_id g) prev + 1)) (s3_log s ++ [e]) u N1)
        as (c & s' & T1 & T2 & T3 & T4 & T5 & T6).
      exists c, s', u. split; [exact T1|]. split; [exact T2|]. split; [exact T5|].
      intros _. rewrite T4. repeat split; auto.
      * apply cnt3_upd; auto.
      * apply UM; auto.
      * apply UM; auto.
    + cbn [Nat.eqb]. eexists. eexists. eexists. split; [reflexivity|]. split; [reflexivity|].
      cbn [s3_log]. rewrite L1. split; [reflexivity|]. discriminate.
Qed.

Lemma upto_evr3 : forall prev r, upto verdict (evr3 prev r) = evr3 prev r.
Proof.
  intros. unfold evr3. destruct (sub (r_id r)); [|reflexivity].
  cbn [filter]. destruct (in_range _ _ _); [|reflexivity]. cbn. destruct (verdict _); auto.
Qed.

Lemma range_loop3_ok : forall recs size s u prev fuel rest, dg3_ok d ->
  Forall (rec3_ok d) recs ->
  (forall g, In g (t_groups d) -> occ (h_id g) (prev ++ recs) <= h_nof g) ->
  s3_rest s = stream3 d recs ++ rest -> cnt3 d (s3_cnt s) prev -> uinv3 u prev ->
  s3_count s + N.of_nat (length (stream3 d recs)) = size ->
  (length (stream3 d recs) < fuel)%nat ->
  range_loop3 d verdict mn mxs size fuel s u =
  Some (s3_log s ++ upto verdict (filter (in_range mn mxs) (numbered sub prev recs))).
Proof.
  induction recs as [|r t IH]; intros size s u prev fuel rest H F NF E C U M L.
  - destruct fuel; [lia|]. cbn [range_loop3]. cbn [stream3 map concat length] in M.
    replace (size <=? s3_count s) with true by lia. cbn. rewrite app_nil_r. reflexivity.
  - apply Forall_cons_iff in F as [HR HF].
    change (stream3 d (r :: t)) with (enc3 d r ++ stream3 d t) in *. rewrite app_length in *.
    rewrite <- app_assoc in E.
    pose proof (enc3_pos d r H HR) as P.
    destruct (range_step3_one s u prev r (stream3 d t ++ rest) H HR) as (c & s1 & u1 & E1 & EC & L1 & K); auto.
    { intros g Hin Eid. specialize (NF g Hin). rewrite occ_app, occ_cons, <- Eid, N.eqb_refl in NF. lia. }
    assert (NF' : forall g, In g (t_groups d) -> occ (h_id g) ((prev ++ [r]) ++ t) <= h_nof g).
    { intros g Hin. rewrite <- app_assoc. apply NF; auto. }
    destruct fuel as [|fuel]; [lia|]. cbn [range_loop3].
    replace (size <=? s3_count s) with false by lia. rewrite E1.
    cbn [numbered]. rewrite filter_app. fold (evr3 prev r). rewrite upto_app, upto_evr3.
    destruct (forallb verdict (evr3 prev r)); cbn [andb] in EC.
    + destruct (K eq_refl) as (R1 & C1 & U2 & N1).
      destruct (range_ready3 d u1) eqn:RD; cbn [negb] in EC; subst c.
      * rewrite (ready3_nothing t u1 (prev ++ [r]) H HF NF' U2 RD), L1. cbn [upto].
        rewrite app_nil_r. reflexivity.
      * rewrite (IH size s1 u1 (prev ++ [r]) fuel rest); auto; try lia.
        rewrite L1, <- app_assoc. reflexivity.
    + subst c. rewrite L1. reflexivity.
Qed.
End R3.

Lemma uinv3_init : forall d sub mn mxs, dg3_ok d -> uinv3 d sub mn mxs (range_init3 d sub mn) [].
Proof.
  intros d sub mn mxs H g Hin. unfold range_init3. rewrite find3_in by (auto; apply H).
  split; intros E.
  - apply andb_prop in E as [E _]; auto.
  - destruct (sub (h_id g)); [right; left|left; auto]. cbn [andb] in E.
    destruct (N.ltb_spec (h_nof g) mn); auto. discriminate.
Qed.

Lemma sr_position_none : forall d u, (forall g, In g (t_groups d) -> h_srs g = []) ->
  sr_position d u = t_link d.
Proof.
  intros d u H. unfold sr_position.
  assert (K : forall l pos, (forall g, In g l -> h_srs g = []) ->
    fold_left (fun pos g =>
    if u (h_id g)
    then fold_left (fun p (x : nat * nat) => if (snd x =? 0)%nat then p else (fst x + snd x)%nat)
           (h_srs g) pos
    else pos) l pos = pos).
  { induction l as [|g r IH]; intros pos Hl; [reflexivity|]. cbn [fold_left].
    rewrite (Hl g) by (left; auto). cbn [fold_left].
    rewrite IH by (intros; apply Hl; right; auto). destruct (u (h_id g)); reflexivity. }
  apply K. auto.
Qed.

Lemma read_partial3_ok : forall d sub verdict mn mx recs fuel pre post,
  dg3_ok d -> Forall (rec3_ok d) recs -> counts3 d recs ->
  (forall g, In g (t_groups d) -> h_srs g = []) ->
  t_link d = length pre -> (length (stream3 d recs) < fuel)%nat -> mn <= mx ->
  read_partial_data3 d sub verdict mn mx fuel (pre ++ stream3 d recs ++ post) =
  Some (upto verdict (filter (in_range mn mx) (numbered sub [] recs))).
Proof.
  intros d sub verdict mn mx recs fuel pre post H F C SR EL L LE. unfold read_partial_data3.
  replace (mx <? mn) with false by lia.
  rewrite (data_size3_ok d recs H F C), sr_position_none by auto.
  rewrite (range_loop3_ok d sub verdict mn mx recs _ _ _ [] fuel post); auto.
  - intros g Hin. cbn [app]. rewrite (C g Hin). lia.
  - cbn [s3_rest]. rewrite EL, skipn_app, Nat.sub_diag, skipn_all. reflexivity.
  - intros g Hin. reflexivity.
  - apply uinv3_init; auto.
Qed.

(* ------------------------------------------------------------------ *)
(** ** Record ids *)

Lemma renumber3_ids : forall l id, id < 256 ->
  map h_id (renumber3 id l) = map (fun k => (id + N.of_nat k) mod 256) (seq 0 (length l)).
Proof.
  induction l as [|g r IH]; intros id H; [reflexivity|].
  cbn [renumber3 map length seq h_id]. f_equal.
  - rewrite N.add_0_r, N.mod_small by auto. reflexivity.
  - unfold w8. change (2 ^ 8) with 256. rewrite IH by (apply N.mod_lt; lia).
    rewrite <- seq_shift, map_map. apply map_ext. intros k.
    rewrite N.add_mod_idemp_l by lia. f_equal. lia.
Qed.

Definition build3 (l : list group3) (link : nat) : dg3 :=
  fold_left add_cg3 l (mkD3 0 [] link).

Lemma renumber3_length : forall l id, length (renumber3 id l) = length l.
Proof. induction l; intros; cbn; auto. Qed.

Lemma add_cg3_groups : forall l d,
  length (t_groups (fold_left add_cg3 l d)) = (length (t_groups d) + length l)%nat.
Proof.
  induction l as [|g r IH]; intros d; cbn [fold_left length]; [lia|].
  rewrite IH. unfold add_cg3. cbn [t_groups]. rewrite renumber3_length, app_length. cbn. lia.
Qed.

Lemma build3_snoc : forall l g link, build3 (l ++ [g]) link = add_cg3 (build3 l link) g.
Proof. intros. unfold build3. rewrite fold_left_app. reflexivity. Qed.

Lemma build3_ids : forall l link,
  map h_id (t_groups (build3 l link)) =
  match length l with
  | 1%nat => [0]
  | n => map (fun k => (1 + N.of_nat k) mod 256) (seq 0 n)
  end.
Proof.
  intros l link. destruct l as [|g l _] using rev_ind; [reflexivity|].
  rewrite build3_snoc. unfold add_cg3. cbn [t_groups].
  assert (LB : length (t_groups (build3 l link)) = length l).
  { unfold build3. rewrite add_cg3_groups. reflexivity. }
  assert (LA : length (t_groups (build3 l link) ++ [g]) = S (length l)).
  { rewrite app_length, LB. cbn [length]. lia. }
  assert (LC : length (l ++ [g]) = S (length l)) by (rewrite app_length; cbn [length]; lia).
  rewrite LC in *. rewrite LA.
  destruct (length l) as [|n].
  - change (1 <? 2)%nat with true. cbv iota. rewrite renumber3_ids by lia.
    rewrite LA. reflexivity.
  - change (S (S n) <? 2)%nat with false. cbv iota. rewrite renumber3_ids by lia.
    rewrite LA. reflexivity.
Qed.

Lemma nodup_map_on : forall (A B : Type) (f : A -> B) l, NoDup l ->
  (forall x y, In x l -> In y l -> f x = f y -> x = y) -> NoDup (map f l).
Proof.
  intros A B f l ND. induction ND as [|x l Hni ND IH]; intros I; cbn [map]; constructor.
  - rewrite in_map_iff. intros (y & E & Hy). apply Hni.
    rewrite (I x y); auto; [left|right]; auto.
  - apply IH. intros; apply I; auto; right; auto.
Qed.

Lemma build3_nodup : forall l link,
  NoDup (map h_id (t_groups (build3 l link))) <-> (length l <= 256)%nat.
Proof.
  intros l link. rewrite build3_ids. split.
  - intros ND. destruct (Nat.le_gt_cases (length l) 256) as [Q|Q]; auto. exfalso.
    assert (K : NoDup (map (fun k => (1 + N.of_nat k) mod 256) (seq 0 (length l)))).
    { destruct (length l) as [|[|n]]; [lia|lia|exact ND]. }
    clear ND. rewrite (NoDup_nth _ 0) in K. rewrite map_length, seq_length in K.
    specialize (K 0%nat 256%nat ltac:(lia) ltac:(lia)).
    assert (0%nat = 256%nat); [apply K|discriminate].
    set (f := fun k => (1 + N.of_nat k) mod 256).
    rewrite (nth_indep _ 0 (f 0%nat)) by (rewrite map_length, seq_length; lia).
    rewrite (nth_indep _ 0 (f 0%nat)) by (rewrite map_length, seq_length; lia).
    rewrite !map_nth, !seq_nth by lia. reflexivity.
  - intros L.
    assert (K : NoDup (map (fun k => (1 + N.of_nat k) mod 256) (seq 0 (length l)))).
    { apply nodup_map_on; [apply seq_NoDup|]. intros x y Hx Hy E.
      apply in_seq in Hx, Hy. apply Nat2N.inj.
      destruct (N.eq_dec (N.of_nat x) 255) as [X|X], (N.eq_dec (N.of_nat y) 255) as [Y|Y];
        try rewrite X in *; try rewrite Y in *; auto.
      - change ((1 + 255) mod 256) with 0 in E. rewrite N.mod_small in E by lia. lia.
      - change ((1 + 255) mod 256) with 0 in E. rewrite N.mod_small in E by lia. lia.
      - rewrite !N.mod_small in E by lia. lia. }
    destruct (length l) as [|[|n]]; [constructor|repeat constructor; auto|exact K].
Qed.

Lemma build3_nrid : forall l link, t_nrid (build3 l link) = if (1 <? length l)%nat then 1 else 0.
Proof.
  intros l link. destruct l as [|g l _] using rev_ind; [reflexivity|].
  rewrite build3_snoc. unfold add_cg3. cbn [t_nrid].
  rewrite !app_length. unfold build3. rewrite add_cg3_groups. reflexivity.
Qed.

Lemma renumber3_attr : forall l id,
  map (fun g => (h_size g, h_nof g, h_srs g)) (renumber3 id l) =
  map (fun g => (h_size g, h_nof g, h_srs g)) l.
Proof. induction l; intros; cbn; f_equal; auto. Qed.

Lemma build3_attr : forall l link,
  map (fun g => (h_size g, h_nof g, h_srs g)) (t_groups (build3 l link)) =
  map (fun g => (h_size g, h_nof g, h_srs g)) l.
Proof.
  induction l as [|g l IH] using rev_ind; intros link; [reflexivity|].
  rewrite build3_snoc. unfold add_cg3. cbn [t_groups].
  rewrite renumber3_attr, !map_app, IH. reflexivity.
Qed.

Lemma build3_ok : forall l link, l <> [] -> (length l <= 256)%nat ->
  (forall g, In g l -> (0 < h_size g)%nat) -> dg3_ok (build3 l link).
Proof.
  intros l link HN L P.
  assert (LB : length (t_groups (build3 l link)) = length l).
  { unfold build3. rewrite add_cg3_groups. reflexivity. }
  constructor.
  - intros E. rewrite E in LB. destruct l; [congruence|discriminate].
  - apply build3_nodup; auto.
  - rewrite build3_nrid. destruct (1 <? length l)%nat; cbn; auto.
  - rewrite build3_nrid. intros Z. destruct (Nat.ltb_spec 1 (length l)); [discriminate|].
    pose proof (build3_ids l link) as I.
    destruct (length l) as [|[|n]] eqn:EL; try lia.
    + destruct l; [congruence|discriminate].
    + destruct (t_groups (build3 l link)) as [|g [|h r]]; try discriminate.
      exists g. split; auto. cbn in I. congruence.
  - intros g Hin. pose proof (build3_attr l link) as A.
    assert (K : In (h_size g, h_nof g, h_srs g) (map (fun g => (h_size g, h_nof g, h_srs g)) l)).
    { rewrite <- A. apply (in_map (fun g => (h_size g, h_nof g, h_srs g))). auto. }
    apply in_map_iff in K as (g1 & E & Hg). injection E as E1 _ _. rewrite <- E1. auto.
Qed.

(** What the MDF3 writer stores for a record is the encoding of the specification. *)
Lemma put3_enc : forall d r, dg3_ok d -> r_id r < 256 -> put3 (t_nrid d) (r_id r) (r_data r) = enc3 d r.
Proof.
  intros d r H L. unfold put3, enc3, w8. rewrite N.mod_small by (change (2 ^ 8) with 256; auto).
  destruct (nrid_cases d H) as [Z|[Z|Z]]; rewrite Z; reflexivity.
Qed.
