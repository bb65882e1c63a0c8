(** Reading an MDF3 file whose counters are partly behind its records. *)
From Verif Require Import Base StreamModel StreamSpec StreamProofs StreamProofs2 RangeProofs Stream3Model Stream3Proofs Meas3Model Meas3Spec Meas3Proofs3.
Local Open Scope N_scope.

(** The records with an index below the number of records of their group. *)
Fixpoint kept (nofs : N -> N) (prev recs : list srec) : list event :=
  match recs with
  | [] => []
  | r :: t => (if occ (r_id r) prev <? nofs (r_id r) then [Ev (occ (r_id r) prev) (r_id r) (r_data r)] else [])
              ++ kept nofs (prev ++ [r]) t
  end.

Definition nofs_of (d : dg3) (nofs : N -> N) : Prop := forall g, In g (t_groups d) -> nofs (h_id g) = h_nof g.
Definition cnt3m (d : dg3) (cnt : N -> N) (prev : list srec) : Prop :=
  forall g, In g (t_groups d) -> cnt (h_id g) = N.min (occ (h_id g) prev) (h_nof g).

Lemma step3_any : forall d nofs s prev r rest, dg3_ok d -> rec3_ok d r -> nofs_of d nofs ->
  s3_rest s = enc3 d r ++ rest -> cnt3m d (s3_cnt s) prev ->
  exists s', step3 d (fun _ => true) s = (true, s') /\
    s3_log s' = s3_log s ++ (if occ (r_id r) prev <? nofs (r_id r) then [Ev (occ (r_id r) prev) (r_id r) (r_data r)] else []) /\
    s3_rest s' = rest /\ cnt3m d (s3_cnt s') (prev ++ [r]) /\
    s3_count s' = s3_count s + N.of_nat (length (enc3 d r)).
Proof.
  intros d nofs s prev r rest H R NF E C.
  destruct R as (g & Hin & Eid & EL). pose proof (NF g Hin) as EN. rewrite Eid in EN. rewrite EN. clear EN.
  rewrite (enc3_length d r g H EL). unfold enc3 in E. rewrite <- Eid, <- !app_assoc in E.
  destruct (lead_id d g s _ H Hin E) as (s1 & E1 & R1 & C1 & L1 & N1).
  unfold step3. rewrite E1. rewrite (find_cg3_in _ _ H Hin).
  unfold read_record3. rewrite <- EL, R1, sgetn_exact, C1, (C g Hin), L1, <- Eid.
  pose proof (d3_size _ H g Hin) as P.
  assert (CU : forall c, cnt3m d c prev -> (c (h_id g) <? h_nof g) = true -> cnt3m d (upd c (h_id g) (c (h_id g) + 1)) (prev ++ [r])).
  { intros c Hc Lc h Hh. unfold upd. rewrite occ_snoc, <- Eid, (N.eqb_sym (h_id g)).
    destruct (N.eqb_spec (h_id h) (h_id g)) as [Q|Q].
    - assert (h = g) as -> by (eapply group3_eq; eauto). rewrite (Hc g Hin) in *. lia.
    - rewrite (Hc h Hh). lia. }
  assert (CS : forall c, cnt3m d c prev -> (c (h_id g) <? h_nof g) = false -> cnt3m d c (prev ++ [r])).
  { intros c Hc Lc h Hh. rewrite occ_snoc, <- Eid, (N.eqb_sym (h_id g)).
    destruct (N.eqb_spec (h_id h) (h_id g)) as [Q|Q].
    - assert (h = g) as -> by (eapply group3_eq; eauto). rewrite (Hc g Hin) in *. lia.
    - rewrite (Hc h Hh). lia. }
  specialize (CU _ C). specialize (CS _ C). rewrite (C g Hin) in CU, CS.
  destruct (occ (h_id g) prev <? h_nof g) eqn:LT.
  - replace (N.min (occ (h_id g) prev) (h_nof g)) with (occ (h_id g) prev) in * by lia. rewrite LT in *.
    specialize (CU eq_refl).
    replace (length (r_data r) =? 0)%nat with false by lia.
    unfold add_count. cbn [s3_rest s3_count s3_cnt s3_log].
    destruct (nrid_cases d H) as [Z|[Z|Z]]; rewrite Z in *; cbn [N.eqb Pos.eqb].
    + eexists. split; [reflexivity|]. cbn [s3_rest s3_count s3_cnt s3_log] in *. split; [reflexivity|].
      split; [reflexivity|]. split; [exact CU|]. change (0 <? 0) with false in N1; cbv iota in N1. rewrite EL. lia.
    + eexists. split; [reflexivity|]. cbn [s3_rest s3_count s3_cnt s3_log] in *. split; [reflexivity|].
      split; [reflexivity|]. split; [exact CU|]. change (0 <? 1) with true in N1; cbv iota in N1. rewrite EL. lia.
    + unfold read_id3. cbn [s3_rest app]. eexists. split; [reflexivity|].
      cbn [s3_rest s3_count s3_cnt s3_log] in *. split; [reflexivity|].
      split; [reflexivity|]. split; [exact CU|]. change (0 <? 2) with true in N1; cbv iota in N1. rewrite EL. lia.
  - replace (N.min (occ (h_id g) prev) (h_nof g)) with (h_nof g) in * by lia. rewrite N.ltb_irrefl in *.
    specialize (CS eq_refl). cbn [s3_cnt].
    replace (length (r_data r) =? 0)%nat with false by lia.
    unfold add_count. cbn [s3_rest s3_count s3_cnt s3_log].
    destruct (nrid_cases d H) as [Z|[Z|Z]]; rewrite Z in *; cbn [N.eqb Pos.eqb].
    + eexists. split; [reflexivity|]. cbn [s3_rest s3_count s3_cnt s3_log] in *. split; [rewrite app_nil_r; auto|].
      split; [reflexivity|]. split; [rewrite ?C1; exact CS|]. change (0 <? 0) with false in N1; cbv iota in N1. rewrite EL. lia.
    + eexists. split; [reflexivity|]. cbn [s3_rest s3_count s3_cnt s3_log] in *. split; [rewrite app_nil_r; auto|].
      split; [reflexivity|]. split; [rewrite ?C1; exact CS|]. change (0 <? 1) with true in N1; cbv iota in N1. rewrite EL. lia.
    + unfold read_id3. cbn [s3_rest app]. eexists. split; [reflexivity|].
      cbn [s3_rest s3_count s3_cnt s3_log] in *. split; [rewrite app_nil_r; auto|].
      split; [reflexivity|]. split; [rewrite ?C1; exact CS|]. change (0 <? 2) with true in N1; cbv iota in N1. rewrite EL. lia.
Qed.

Lemma loop3_part : forall recs d nofs size s prev fuel rest, dg3_ok d -> Forall (rec3_ok d) recs -> nofs_of d nofs ->
  s3_rest s = stream3 d recs ++ rest -> cnt3m d (s3_cnt s) prev ->
  size <= s3_count s + N.of_nat (length (stream3 d recs)) ->
  (length (stream3 d recs) < fuel)%nat ->
  exists p q, recs = p ++ q /\ size <= s3_count s + N.of_nat (length (stream3 d p)) /\
    loop3 d (fun _ => true) size fuel s = Some (s3_log s ++ kept nofs prev p).
Proof.
  induction recs as [|r t IH]; intros d nofs size s prev fuel rest H F NF E C M L.
  - destruct fuel; [lia|]. exists [], []. split; [reflexivity|]. split; [exact M|]. cbn [loop3]. cbn [stream3 map concat length] in M.
    replace (size <=? s3_count s) with true by lia. cbn [kept]. rewrite app_nil_r. reflexivity.
  - destruct fuel as [|fuel]; [lia|]. cbn [loop3]. destruct (size <=? s3_count s) eqn:SZ.
    + exists [], (r :: t). split; [reflexivity|]. split; [cbn [stream3 map concat length]; lia|]. cbn [kept]. rewrite app_nil_r. reflexivity.
    + apply Forall_cons_iff in F as [HR HF].
      change (stream3 d (r :: t)) with (enc3 d r ++ stream3 d t) in *. rewrite app_length in *. rewrite <- app_assoc in E.
      pose proof (enc3_pos d r H HR) as P.
      destruct (step3_any d nofs s prev r (stream3 d t ++ rest) H HR NF E C) as (s1 & E1 & L1 & R1 & C1 & N1).
      rewrite E1.
      destruct (IH d nofs size s1 (prev ++ [r]) fuel rest H HF NF R1 C1) as (p & q & E2 & S2 & K2); [lia|lia|].
      exists (r :: p), q. split; [rewrite E2; reflexivity|].
      change (stream3 d (r :: p)) with (enc3 d r ++ stream3 d p). rewrite app_length.
      split; [lia|]. rewrite K2, L1. cbn [kept]. rewrite <- app_assoc. reflexivity.
Qed.

(** ** What is kept *)

Lemma kept_app : forall nofs a b prev, kept nofs prev (a ++ b) = kept nofs prev a ++ kept nofs (prev ++ a) b.
Proof.
  intros nofs a. induction a as [|r t IH]; intros b prev; cbn [app kept].
  - rewrite app_nil_r. reflexivity.
  - rewrite IH, <- !app_assoc. reflexivity.
Qed.

Lemma numbered_app : forall sub a b prev, numbered sub prev (a ++ b) = numbered sub prev a ++ numbered sub (prev ++ a) b.
Proof.
  intros sub a. induction a as [|r t IH]; intros b prev; cbn [app numbered].
  - rewrite app_nil_r. reflexivity.
  - rewrite IH, <- !app_assoc. reflexivity.
Qed.

Lemma kept_all : forall d nofs recs prev, Forall (rec3_ok d) recs -> nofs_of d nofs ->
  (forall g, In g (t_groups d) -> occ (h_id g) (prev ++ recs) <= h_nof g) ->
  kept nofs prev recs = numbered (fun _ => true) prev recs.
Proof.
  intros d nofs recs. induction recs as [|r t IH]; intros prev F NF B; [reflexivity|].
  apply Forall_cons_iff in F as [(g & Hin & Eid & _) HF]. cbn [kept numbered].
  rewrite IH; [|exact HF|exact NF|intros x Hx; rewrite <- app_assoc; apply B; exact Hx].
  f_equal. pose proof (B g Hin) as Bg. rewrite occ_app, occ_cons, <- Eid, N.eqb_refl in Bg. rewrite <- Eid, (NF g Hin).
  replace (occ (h_id g) prev <? h_nof g) with true by lia. reflexivity.
Qed.

Lemma kept_part : forall nofs recs prev, part_of (kept nofs prev recs) (numbered (fun _ => true) prev recs).
Proof.
  intros nofs recs. induction recs as [|r t IH]; intros prev; cbn [kept numbered app]; [constructor|].
  destruct (occ (r_id r) prev <? nofs (r_id r)); cbn [app]; constructor; apply IH.
Qed.

Lemma part_of_nil : forall {A} (l : list A), part_of [] l.
Proof. induction l; constructor; auto. Qed.
Lemma part_of_app : forall {A} (a b l : list A), part_of a l -> part_of a (l ++ b).
Proof. intros A a b l H. induction H; cbn [app]; try (constructor; assumption). apply part_of_nil. Qed.

(** ** Sizes *)

Lemma size_mono : forall (l : list group3) nr (f f' : group3 -> N), (forall g, In g l -> f g <= f' g) ->
  fold_right (fun g acc => (nr + N.of_nat (h_size g)) * f g + acc) 0 l <= fold_right (fun g acc => (nr + N.of_nat (h_size g)) * f' g + acc) 0 l.
Proof.
  induction l as [|g r IH]; intros nr f f' H; [apply N.le_refl|]. cbn [fold_right].
  apply N.add_le_mono; [apply N.mul_le_mono_l; apply H; left; reflexivity|]. apply IH. intros x Hx. apply H. right. exact Hx.
Qed.

Lemma stream3_app : forall d a b, stream3 d (a ++ b) = stream3 d a ++ stream3 d b.
Proof. intros. unfold stream3. rewrite map_app, concat_app. reflexivity. Qed.

Lemma stream3_nil : forall d recs, dg3_ok d -> Forall (rec3_ok d) recs -> length (stream3 d recs) = 0%nat -> recs = [].
Proof.
  intros d [|r t] H F E; [reflexivity|]. exfalso. apply Forall_cons_iff in F as [HR _].
  change (stream3 d (r :: t)) with (enc3 d r ++ stream3 d t) in E. rewrite app_length in E. pose proof (enc3_pos d r H HR). lia.
Qed.

Lemma split_prefix : forall {A} (a b p q : list A), a ++ b = p ++ q -> (exists s, p = a ++ s) \/ (exists s, a = p ++ s /\ s <> []).
Proof.
  intros A a. induction a as [|x a IH]; intros b p q E.
  - left. exists p. reflexivity.
  - destruct p as [|y p].
    + right. exists (x :: a). split; [reflexivity|discriminate].
    + cbn [app] in E. assert (x = y /\ a ++ b = p ++ q) as [-> E'] by (split; congruence).
      destruct (IH b p q E') as [[s ->]|[s [-> N]]]; [left|right]; exists s; auto.
Qed.

(** Each counter is at least the number of old records, and at most the number of all records. *)
Lemma read3_part : forall d old new fuel pre post, dg3_ok d -> Forall (rec3_ok d) (old ++ new) ->
  (forall g, In g (t_groups d) -> occ (h_id g) old <= h_nof g /\ h_nof g <= occ (h_id g) (old ++ new)) ->
  t_link d = length pre -> (length (stream3 d (old ++ new)) < fuel)%nat ->
  exists more, read_data3 d (fun _ => true) fuel (pre ++ stream3 d (old ++ new) ++ post) =
      Some (numbered (fun _ => true) [] old ++ more) /\
    part_of more (numbered (fun _ => true) old new).
Proof.
  intros d old new fuel pre post H F B EL L. unfold read_data3.
  set (nofs := fun id => match find (fun g => h_id g =? id) (t_groups d) with Some g => h_nof g | None => 0 end).
  assert (NF : nofs_of d nofs).
  { intros g Hin. unfold nofs. rewrite (find3_in _ _ (Stream3Proofs.d3_ids _ H) Hin). reflexivity. }
  assert (FO : Forall (rec3_ok d) old) by (apply Forall_app in F; tauto).
  assert (S1 : N.of_nat (length (stream3 d old)) <= data_size3 d).
  { rewrite <- (stream3_size old d H FO). unfold data_size3. apply (size_mono (t_groups d) _ (fun g => occ (h_id g) old) h_nof). intros g Hg. apply B. exact Hg. }
  assert (S2 : data_size3 d <= N.of_nat (length (stream3 d (old ++ new)))).
  { rewrite <- (stream3_size (old ++ new) d H F). unfold data_size3. apply (size_mono (t_groups d) _ h_nof (fun g => occ (h_id g) (old ++ new))). intros g Hg. apply B. exact Hg. }
  destruct (loop3_part (old ++ new) d nofs (data_size3 d) (mkS3 (skipn (t_link d) (pre ++ stream3 d (old ++ new) ++ post)) 0 (fun _ => 0) []) [] fuel post H F NF)
    as (p & q & EP & SP & K).
  - cbn [s3_rest]. rewrite EL, skipn_app, Nat.sub_diag, skipn_all. reflexivity.
  - intros g Hg. cbn [s3_cnt]. cbn. destruct (h_nof g); reflexivity.
  - cbn [s3_count]. lia.
  - exact L.
  - cbn [s3_count s3_log app] in *. rewrite K.
    assert (PX : exists s, p = old ++ s).
    { destruct (split_prefix _ _ _ _ EP) as [X|[s [E NS]]]; [exact X|]. exfalso. apply NS.
      apply (stream3_nil d s H).
      - rewrite E in FO. apply Forall_app in FO. tauto.
      - rewrite E, stream3_app, app_length in S1. lia. }
    destruct PX as [s ->]. rewrite kept_app. cbn [app].
    exists (kept nofs old s). split.
    + f_equal. f_equal. apply (kept_all d); auto. intros g Hg. cbn [app]. apply B. exact Hg.
    + rewrite <- app_assoc in EP. apply app_inv_head in EP. rewrite EP, numbered_app. apply part_of_app. apply kept_part.
Qed.
