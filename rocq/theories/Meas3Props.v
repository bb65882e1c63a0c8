(** C74, C75: the file of an MDF3 measurement. *)
From Verif Require Import Base BlockModel BlockSpec BlockProofs BlockProofs3 BlockProofs4 StreamModel StreamSpec StreamProofs StreamProofs2 RangeProofs Stream3Model Stream3Proofs
  ConvModel CcModel Cc3Proofs MetaModel MetaProofs
  IdentModel IdentSpec IdentProofs Meta3Model Meta3Spec Meta3Proofs Meta3Proofs2 MeasModel MeasProofs MeasProofs2 MeasProofs4
  Meas3Model Meas3Proofs Meas3Proofs2 Meas3Spec Meas3Proofs3 Meas3Proofs4 Meas3Proofs5 Meas3Proofs6 Meas3Proofs7 Meas3Proofs8.
Local Open Scope N_scope.

Lemma times3_ok : forall h ops done mem disk, time3_ok mem -> time3_ok disk -> (forall t, In (Start3 t) ops -> time3_ok t) ->
  time3_ok (fst (times3 h done mem disk ops)) /\ time3_ok (snd (times3 h done mem disk ops)).
Proof.
  intros h ops. induction ops as [|o r IH]; intros done mem disk M D T; [split; assumption|].
  cbn [times3]. apply IH.
  - destruct o; auto. destruct (fresh3 h done); auto. apply T. left. reflexivity.
  - destruct o; auto.
  - intros t I. apply T. right. exact I.
Qed.

Lemma time3_of_ok : forall a b t, time3_of a b t -> time3_ok a -> time3_ok b -> time3_ok t.
Proof.
  intros a b t (T1 & T2 & T3 & T4 & T5 & T6) (A1 & A2 & A3 & A4 & A5 & A6) (B1 & B2 & B3 & B4 & B5 & B6).
  unfold time3_ok. destruct T1 as [-> | ->], T2 as [-> | ->], T3 as [-> | ->], T4 as [-> | ->], T5 as [-> | ->], T6 as [-> | ->]; tauto.
Qed.

Lemma same_dgs_nums : forall x d' d, dgb3_as d d' -> Forall2 only_nof (d3_cgs d) (d3_cgs x) -> same_description3 d' (dg_nums x d').
Proof.
  intros x d' d (_ & _ & cgs & A & ->) F. split; [reflexivity|]. unfold dg_nums. cbn [d3_cgs]. revert cgs A.
  induction F as [|a y r r' E F IH]; intros cgs A; inversion A as [|? g' ? l' A1 A2]; subst; [constructor|].
  unfold cgs_nums. cbn [combine map]. constructor; [reflexivity|apply IH; exact A2].
Qed.

Lemma nums_cgs : forall d d' x (P : N -> N -> Prop), dgb3_as d d' -> Forall2 only_nof (d3_cgs d) (d3_cgs x) ->
  Forall (fun c => P (g3_id c) (g3_nof c)) (d3_cgs x) -> Forall (fun c => P (g3_id c) (g3_nof c)) (d3_cgs (dg_nums x d')).
Proof.
  intros d d' x P (_ & _ & cgs & A & ->) F. unfold dg_nums. cbn [d3_cgs]. revert cgs A.
  induction F as [|a y r r' E F IH]; intros cgs A H; inversion A as [|? g' ? l' A1 A2]; subst; [constructor|].
  apply Forall_cons_iff in H as [H1 H2].
  unfold cgs_nums. cbn [combine map]. constructor; [|apply IH; assumption].
  destruct A1 as (_ & _ & _ & _ & cns & _ & ->). unfold only_nof in E. rewrite E in H1. exact H1.
Qed.

Lemma forall2_nth : forall {A B} (R : A -> B -> Prop) l l' k b, Forall2 R l l' -> nth_error l' k = Some b ->
  exists a, nth_error l k = Some a /\ R a b.
Proof.
  intros A B R l l' k b F. revert k. induction F as [|x y r r' H F IH]; intros [|k] E; try discriminate; cbn [nth_error] in *.
  - exists x. split; [reflexivity|]. replace b with y by congruence. exact H.
  - apply IH. exact E.
Qed.

Lemma pointwise2 : forall {A B} (R : A -> B -> Prop) l l', length l' = length l ->
  (forall k a, nth_error l k = Some a -> exists b, nth_error l' k = Some b /\ R a b) -> Forall2 R l l'.
Proof.
  intros A B R l. induction l as [|a r IH]; intros [|b l'] L H; try discriminate; constructor.
  - destruct (H 0%nat a eq_refl) as (b' & E & HR). cbn [nth_error] in E. replace b with b' by congruence. exact HR.
  - apply IH; [cbn in L; lia|]. intros k x E. exact (H (S k) x E).
Qed.

(** A program that stops after any number of writes of any call leaves a file that is read: the
    description with its texts, each field of the start time from before or after the call, each
    counter from before or after the call, all records of the calls before, and after them only
    records of the call, in their order. *)
Theorem C75_stopped : forall fuel i h h' ops o j m0 m f x fuel',
  id_texts i -> id_numbers i -> hd3_as h h' -> hd3_fuel fuel h -> new3 h ->
  calls3_ok h (ops ++ [o]) -> in_turn3 (ops ++ [o]) ->
  (forall k d, In k (sources3 (ops ++ [o])) -> nth_error (h3_dgs h) k = Some d -> records3_ok d (saved3 k (ops ++ [o]))) ->
  init_meas3 i h = Ok m0 -> run3 ops m0 = Some m -> stopped3 o j m = Some f ->
  N.of_nat (length f) < 2 ^ 32 -> (length f < fuel')%nat ->
  exists hr, read_file3 fuel (f ++ x) = Ok (id_trimmed i, hr) /\
    same_texts3 h' hr /\
    time3_of (stored_time3 h ops) (stored_time3 h (ops ++ [o])) (h3_time hr) /\
    length (h3_dgs hr) = length (h3_dgs h') /\
    forall k d', nth_error (h3_dgs h') k = Some d' -> exists dr more,
      nth_error (h3_dgs hr) k = Some dr /\ same_description3 d' dr /\
      counters3 (saved3 k ops) (saved3 k [o]) dr /\
      read_data3 (dgroup3_of dr) (fun _ => true) fuel' (f ++ x) = Some (told (saved3 k ops) ++ more) /\
      part_of more (told_after (saved3 k ops) (saved3 k [o])).
Proof.
  intros fuel i h h' ops o j m0 m f x fuel' IT IN A FU NW [CS CT] T RO EI ER ES LF FF.
  assert (NE : (0 < length (write_id false i []))%nat) by (rewrite write_id_new, id_bytes_length; lia).
  pose proof (inv3_init i h m0 NW EI) as V0.
  assert (L64 : length (write_id false i []) = 64%nat) by (rewrite write_id_new; apply id_bytes_length).
  assert (HI : forall y, read_id (write_id false i [] ++ y) = Ok (id_trimmed i)).
  { intros y. apply read_id_holds; auto. apply holds_ext. apply write_id_holds. }
  set (base := write_id false i []) in *. clearbody base. clear EI.
  destruct (inv3_run _ _ _ _ _ _ ops m NE V0 (in_turn3_app _ _ T)
    (fun k I => CS k (eq_ind_r (fun l => In k l) (in_or_app _ _ _ (or_introl I)) (flat_map_app _ _ _))) ER) as (data & lk & V).
  cbn [app] in V.
  destruct (stopped_view _ _ _ _ _ _ _ _ _ NE V T CS ES) as (t & xs & data' & EF & TO & LX & GS).
  assert (AW : hd3_as h h') by exact A. destruct AW as (TH & _ & _ & dgs & AD & EH').
  assert (TS : time3_ok t).
  { eapply time3_of_ok; [exact TO| |].
    - apply times3_ok; auto. intros u I. apply CT. apply in_or_app. left. exact I.
    - apply times3_ok; auto. }
  assert (LH' : length (h3_dgs h') = length (h3_dgs h)).
  { rewrite EH'. cbn [h3_dgs]. apply (forall2_length _ _ _ AD). }
  assert (FIT : Forall2 fits_dg (h3_dgs h) xs).
  { apply pointwise2; [exact LX|]. intros k d Hk. destruct (GS k d Hk) as (y & Ey & G1 & G2 & new' & _ & G3 & _).
    exists y. split; [exact Ey|]. split; [lia|].
    clear -G1 G3. induction G1 as [|g c r r' E G1 IH]; constructor.
    - split; [exact E|]. apply Forall_inv in G3. destruct G3 as [-> | ->]; apply N.mod_lt; discriminate.
    - apply IH. apply Forall_inv_tail in G3. exact G3. }
  exists (set_time3 t (set_dgs3 h' (dgs_nums xs (h3_dgs h')))).
  assert (RH : read_hd3 fuel (f ++ x) 64 = Ok (set_time3 t (set_dgs3 h' (dgs_nums xs (h3_dgs h'))))).
  { rewrite <- L64, EF, <- !app_assoc.
    apply (read_view fuel base h h' _ t xs (data' ++ x) NE A FU eq_refl TS FIT).
    rewrite EF in LF. rewrite !app_length in *. lia. }
  split.
  { unfold read_file3. rewrite EF at 1. rewrite <- !app_assoc. rewrite HI. cbn [bind]. rewrite RH. reflexivity. }
  split; [repeat split; reflexivity|]. split; [exact TO|].
  split.
  { cbn [set_time3 set_dgs3 h3_dgs]. unfold dgs_nums. rewrite map_length, combine_length, LX, LH', Nat.min_id. reflexivity. }
  intros k d' Hk'.
  assert (HD : exists d, nth_error (h3_dgs h) k = Some d /\ dgb3_as d d').
  { rewrite EH' in Hk'. cbn [h3_dgs] in Hk'. eapply forall2_nth; eauto. }
  destruct HD as (d & Hk & AK). destruct (GS k d Hk) as (y & Ey & G1 & G2 & new' & HN & G3 & G4).
  exists (dg_nums y d'). cbn [set_time3 set_dgs3 h3_dgs].
  assert (E1 : nth_error (dgs_nums xs (h3_dgs h')) k = Some (dg_nums y d')) by (apply dgs_nums_nth; assumption).
  assert (SD : same_description3 d' (dg_nums y d')) by (eapply same_dgs_nums; eauto).
  destruct G4 as [Z|(a & b & Ef & El)].
  - (* no records *)
    apply app_eq_nil in Z. destruct Z as [Z1 Z2]. rewrite Z1 in *. subst new'.
    assert (GZ : Forall (fun g => g3_nof g = 0) (d3_cgs y)).
    { eapply Forall_impl; [|exact G3]. cbv beta. intros c [H|H]; rewrite H; reflexivity. }
    exists []. split; [exact E1|]. split; [exact SD|]. split.
    { unfold counters3. apply (nums_cgs d d' y (fun id n => n = occ id [] \/ n = occ id ([] ++ saved3 k [o])) AK G1).
      eapply Forall_impl; [|exact GZ]. cbv beta. intros c H. left. rewrite H. reflexivity. }
    split; [|apply part_of_nil].
    apply group_none; [exact GZ|lia].
  - (* the bytes of the records are there *)
    destruct (existsb (Nat.eqb k) (sources3 (ops ++ [o]))) eqn:XS.
    2:{ assert (NI : ~ In k (sources3 (ops ++ [o]))) by (intros C; apply existsb_in in C; congruence).
        pose proof (saved3_none _ _ NI) as ZZ. rewrite saved3_snoc in ZZ. apply app_eq_nil in ZZ. destruct ZZ as [Z1 Z2].
        rewrite <- saved3_one in Z2. rewrite Z1, Z2 in *.
        assert (new' = []) as -> by (destruct HN; assumption).
        assert (GZ : Forall (fun g => g3_nof g = 0) (d3_cgs y)).
        { eapply Forall_impl; [|exact G3]. cbv beta. intros c [H|H]; rewrite H; reflexivity. }
        exists []. split; [exact E1|]. split; [exact SD|]. split.
        { unfold counters3. apply (nums_cgs d d' y (fun id n => n = occ id [] \/ n = occ id ([] ++ [])) AK G1).
          eapply Forall_impl; [|exact GZ]. cbv beta. intros c H. left. rewrite H. reflexivity. }
        split; [|constructor]. apply group_none; [exact GZ|lia]. }
    apply existsb_in in XS. pose proof (RO k d XS Hk) as RK. rewrite saved3_snoc, <- saved3_one in RK.
    assert (RK' : records3_ok d (saved3 k ops ++ new')).
    { destruct HN as [-> | ->]; [|exact RK]. rewrite app_nil_r. destruct RK as (R1 & R2 & R3).
      split; [exact R1|]. split; [exact R2|]. apply Forall_app in R3. tauto. }
    assert (LB : (length (bytes3 (ids_for d) (saved3 k ops ++ new')) <= length f)%nat).
    { rewrite Ef, !app_length. lia. }
    assert (OB : forall id, occ id (saved3 k ops ++ new') < 2 ^ 32).
    { intros id. pose proof (occ_bytes d _ id RK'). lia. }
    assert (OB0 : forall id, occ id (saved3 k ops) < 2 ^ 32).
    { intros id. specialize (OB id). rewrite occ_app in OB. lia. }
    assert (G3' : Forall (between (saved3 k ops) new') (d3_cgs y)).
    { eapply Forall_impl; [|exact G3]. cbv beta. intros c [H|H]; unfold between; rewrite H; [left|right]; apply N.mod_small; auto. }
    destruct (group_part d d' y (saved3 k ops) new' fuel' a (b ++ x) AK G1 RK' G3' El ltac:(lia)) as (more & R & PM).
    exists more. split; [exact E1|]. split; [exact SD|]. split.
    { unfold counters3. apply (nums_cgs d d' y (fun id n => n = occ id (saved3 k ops) \/ n = occ id (saved3 k ops ++ saved3 k [o])) AK G1).
      eapply Forall_impl; [|exact G3']. cbv beta. intros c [H|H]; rewrite H; [left; reflexivity|].
      destruct HN as [-> | ->]; [left; rewrite app_nil_r; reflexivity|right; reflexivity]. }
    split.
    + rewrite Ef, <- !app_assoc. exact R.
    + destruct HN as [-> | ->]; [|exact PM]. inversion PM. apply part_of_nil.
Qed.
Print Assumptions C75_stopped.

(** Between the calls the file is complete: all counters and all records of all calls are in it, and
    the start time that was last stored. *)
Theorem C74_file : forall fuel i h h' ops m0 m x fuel',
  id_texts i -> id_numbers i -> hd3_as h h' -> hd3_fuel fuel h -> new3 h ->
  calls3_ok h ops -> in_turn3 ops ->
  (forall k d, In k (sources3 ops) -> nth_error (h3_dgs h) k = Some d -> records3_ok d (saved3 k ops)) ->
  init_meas3 i h = Ok m0 -> run3 ops m0 = Some m ->
  N.of_nat (length (m3_file m)) < 2 ^ 32 -> (length (m3_file m) < fuel')%nat ->
  exists hr, read_file3 fuel (m3_file m ++ x) = Ok (id_trimmed i, hr) /\
    same_texts3 h' hr /\ h3_time hr = stored_time3 h ops /\
    length (h3_dgs hr) = length (h3_dgs h') /\
    forall k d', nth_error (h3_dgs h') k = Some d' -> exists l,
      nth_error (h3_dgs hr) k = Some (dg3_after (saved3 k ops) l d') /\
      read_data3 (dgroup3_of (dg3_after (saved3 k ops) l d')) (fun _ => true) fuel' (m3_file m ++ x) = Some (told (saved3 k ops)).
Proof.
  intros fuel i h h' ops m0 m x fuel' IT IN A FU NW [CS CT] T RO EI ER LF FF.
  assert (NE : (0 < length (write_id false i []))%nat) by (rewrite write_id_new, id_bytes_length; lia).
  pose proof (inv3_init i h m0 NW EI) as V0.
  assert (L64 : length (write_id false i []) = 64%nat) by (rewrite write_id_new; apply id_bytes_length).
  assert (HI : forall y, read_id (write_id false i [] ++ y) = Ok (id_trimmed i)).
  { intros y. apply read_id_holds; auto. apply holds_ext. apply write_id_holds. }
  set (base := write_id false i []) in *. clearbody base. clear EI.
  destruct (inv3_run _ _ _ _ _ _ ops m NE V0 T CS ER) as (data & lk & V). cbn [app] in V.
  assert (AW : hd3_as h h') by exact A. destruct AW as (TH & _ & _ & dgs & AD & EH').
  assert (TS : time3_ok (stored_time3 h ops)) by (apply times3_ok; auto).
  assert (LH' : length (h3_dgs h') = length (h3_dgs h)).
  { rewrite EH'. cbn [h3_dgs]. apply (forall2_length _ _ _ AD). }
  set (t := stored_time3 h ops) in *. set (xs := h3_dgs (m3_hd m)).
  assert (HM : set_time3 t (m3_hd m) = set_time3 t (set_dgs3 h xs)).
  { unfold xs. rewrite (v_hd _ _ _ _ _ _ V) at 1. reflexivity. }
  pose proof (v_file _ _ _ _ _ _ V) as EF. fold t in EF. rewrite HM in EF.
  pose proof (v_len _ _ _ _ _ _ V) as LX. fold xs in LX.
  assert (GS : forall k d, nth_error (h3_dgs h) k = Some d -> nth_error xs k = Some (dg_now (saved3 k ops) (lk k) d) /\
     group_state (m3_file m) d (dg_now (saved3 k ops) (lk k) d) (saved3 k ops) []).
  { intros k d Hk. split; [apply (v_dgs _ _ _ _ _ _ V); exact Hk|]. rewrite EF, <- (app_nil_r data).
    eapply group_kept; [exact V|exact Hk|]. rewrite <- HM. eapply inv3_alike. exact V. }
  assert (FIT : Forall2 fits_dg (h3_dgs h) xs).
  { apply pointwise2; [exact LX|]. intros k d Hk. destruct (GS k d Hk) as (Ey & G1 & G2 & new' & _ & G3 & _).
    eexists. split; [exact Ey|]. split; [lia|].
    clear -G1 G3. induction G1 as [|g c r r' E G1 IH]; constructor.
    - split; [exact E|]. apply Forall_inv in G3. destruct G3 as [-> | ->]; apply N.mod_lt; discriminate.
    - apply IH. apply Forall_inv_tail in G3. exact G3. }
  exists (set_time3 t (set_dgs3 h' (dgs_nums xs (h3_dgs h')))).
  assert (RH : read_hd3 fuel (m3_file m ++ x) 64 = Ok (set_time3 t (set_dgs3 h' (dgs_nums xs (h3_dgs h'))))).
  { rewrite <- L64, EF, <- !app_assoc.
    apply (read_view fuel base h h' _ t xs (data ++ x) NE A FU eq_refl TS FIT).
    rewrite EF in LF. rewrite !app_length in *. lia. }
  split.
  { unfold read_file3. rewrite EF at 1. rewrite <- !app_assoc. rewrite HI. cbn [bind]. rewrite RH. reflexivity. }
  split; [repeat split; reflexivity|]. split; [reflexivity|].
  split.
  { cbn [set_time3 set_dgs3 h3_dgs]. unfold dgs_nums. rewrite map_length, combine_length, LX, LH', Nat.min_id. reflexivity. }
  intros k d' Hk'.
  assert (HD : exists d, nth_error (h3_dgs h) k = Some d /\ dgb3_as d d').
  { rewrite EH' in Hk'. cbn [h3_dgs] in Hk'. eapply forall2_nth; eauto. }
  destruct HD as (d & Hk & AK). destruct (GS k d Hk) as (Ey & G1 & G2 & new' & HN & G3 & G4).
  assert (new' = []) as -> by (destruct HN; assumption). rewrite app_nil_r in *.
  exists (lk k). cbn [set_time3 set_dgs3 h3_dgs].
  split; [rewrite <- (nums_after _ _ d d' AK); apply dgs_nums_nth; assumption|].
  rewrite <- (nums_after _ _ d d' AK).
  assert (NONE : saved3 k ops = [] -> read_data3 (dgroup3_of (dg_nums (dg_now (saved3 k ops) (lk k) d) d')) (fun _ => true) fuel' (m3_file m ++ x) = Some (told (saved3 k ops))).
  { intros Z. rewrite Z. apply group_none; [|lia]. unfold dg_now. cbn [d3_cgs]. clear. induction (d3_cgs d); constructor; auto. }
  destruct G4 as [Z|(a & b & Ef & El)]; [apply NONE; exact Z|].
  destruct (existsb (Nat.eqb k) (sources3 ops)) eqn:XS.
  2:{ apply NONE. apply saved3_none. intros C. apply existsb_in in C. congruence. }
  apply existsb_in in XS. pose proof (RO k d XS Hk) as RK.
  assert (LB : (length (bytes3 (ids_for d) (saved3 k ops)) <= length (m3_file m))%nat) by (rewrite Ef, !app_length; lia).
  assert (G3' : Forall (between (saved3 k ops) []) (d3_cgs (dg_now (saved3 k ops) (lk k) d))).
  { eapply Forall_impl; [|exact G3]. cbv beta. intros c H. left.
    assert (HC : g3_nof c = w32 (occ (g3_id c) (saved3 k ops))) by (destruct H; assumption). rewrite HC.
    apply N.mod_small. pose proof (occ_bytes d _ (g3_id c) RK). lia. }
  assert (RK' : records3_ok d (saved3 k ops ++ [])) by (rewrite app_nil_r; exact RK).
  destruct (group_part d d' _ (saved3 k ops) [] fuel' a (b ++ x) AK G1 RK' G3' El ltac:(rewrite app_nil_r; lia)) as (more & R & PM).
  rewrite app_nil_r in R. inversion PM; subst more. rewrite app_nil_r in R.
  rewrite Ef, <- !app_assoc. exact R.
Qed.
Print Assumptions C74_file.

(** The start time of the first StartMeasurement before any record is the one in the file after
    FinalizeMeasurement. *)
Theorem C74_start_time : forall h a t b, (forall k, saved3 k a = []) -> (forall u, ~ In (Start3 u) b) ->
  stored_time3 h (a ++ Start3 t :: b ++ [Final3]) = t.
Proof.
  intros h a t b NA NB.
  replace (a ++ Start3 t :: b ++ [Final3]) with ((a ++ [Start3 t] ++ b) ++ [Final3]) by (rewrite <- !app_assoc; reflexivity).
  rewrite stored_snoc. rewrite app_assoc. induction b as [|o b IH] using rev_ind.
  - rewrite app_nil_r, known_snoc.
    assert (FR : fresh3 h a = true).
    { unfold fresh3. generalize 0%nat. induction (h3_dgs h) as [|d r IH]; intros k; [reflexivity|].
      cbn [fresh_from]. rewrite IH, andb_true_r. apply forallb_forall. intros g _. rewrite NA. reflexivity. }
    rewrite FR. reflexivity.
  - rewrite app_assoc, known_snoc. destruct o as [u|k recs|].
    + exfalso. apply (NB u). apply in_or_app. right. left. reflexivity.
    + apply IH. intros v I. apply (NB v). apply in_or_app. left. exact I.
    + apply IH. intros v I. apply (NB v). apply in_or_app. left. exact I.
Qed.
Print Assumptions C74_start_time.

(** ** Two data groups; the second one is saved after the first *)

Definition cg3w (id size : N) : cg3 :=
  mkCg3 id size 0 0 [mkCn3 0 [115] [100] 0 8 0 false 0 0 0 0 [] [] [] None] [71].
Definition hd3w : hd3 :=
  mkHd3 (mkT3 [48] [48] 5 0 0 []) [65] [] [80] [] [67; 111]
    [mkDgb3 0 0 [cg3w 1 2; cg3w 2 1]; mkDgb3 0 0 [cg3w 0 2]].
Definition hd3w' : hd3 :=
  mkHd3 (mkT3 [48] [48] 5 0 0 []) [65] [] [80] [] [67; 111]
    [mkDgb3 1 0 [cg3w 1 2; cg3w 2 1]; mkDgb3 0 0 [cg3w 0 2]].
Definition ops3w : list op3 :=
  [Start3 (mkT3 [49] [50] 77 1 2 [80]); Save3 0 [Rec 1 [7; 8]; Rec 2 [9]]; Save3 0 [Rec 1 [5; 6]]; Final3].
Definition op3w : op3 := Save3 1 [Rec 0 [1; 2]; Rec 0 [3; 4]].

Definition plain_w (s : list N) : bool :=
  negb (existsb (fun c => c =? 0) s) &&
  match s with [] => true | _ => negb (is_space (List.hd 0 s)) && negb (is_space (last s 0)) end.

Lemma plain_w_ok : forall s, plain_w s = true -> plain_text s.
Proof.
  intros s H. unfold plain_w in H. apply andb_prop in H as [A B]. split.
  - intros I. apply Bool.negb_true_iff in A. assert (X : existsb (fun c => c =? 0) s = true).
    { apply existsb_exists. exists 0. split; [exact I|reflexivity]. }
    congruence.
  - intros NE. destruct s; [congruence|]. apply andb_prop in B as [B C].
    apply Bool.negb_true_iff in B. apply Bool.negb_true_iff in C. auto.
Qed.

Ltac parts_w :=
  repeat match goal with |- _ /\ _ => split end;
  lazymatch goal with
  | |- plain_text _ => apply plain_w_ok; vm_compute; reflexivity
  | |- _ < _ => vm_compute; reflexivity
  | |- _ <= _ => vm_compute; discriminate
  | |- (_ <= _)%nat => apply Nat.leb_le; vm_compute; reflexivity
  | |- _ => idtac
  end.

Lemma cg3w_as : forall id size, id < 2 ^ 16 -> size < 2 ^ 16 -> cg3_as (cg3w id size) (cg3w id size).
Proof.
  intros id size B1 B2. unfold cg3_as, text3_ok. cbn [cg3w g3_id g3_size g3_nof g3_sr g3_cns g3_comment].
  split; [exact B1|]. split; [exact B2|]. split; [reflexivity|]. split; [parts_w|].
  eexists. split; [|reflexivity]. constructor; [|constructor].
  unfold cn3_as, text3_ok, str3_ok.
  cbn [n3_type n3_short n3_desc n3_start n3_bits n3_signal n3_valid n3_min n3_max n3_rate n3_offset n3_comment n3_long n3_display n3_cc].
  parts_w. exists None. split; [exact Logic.I|reflexivity].
Qed.

Lemma hd3w_as : hd3_as hd3w hd3w'.
Proof.
  unfold hd3_as, time3_ok, str3_ok, text3_ok. cbn [hd3w h3_time h3_author h3_org h3_project h3_subject h3_comment h3_dgs
    t3_date t3_time t3_timer t3_ns t3_offset t3_quality].
  parts_w.
  eexists. split; [|reflexivity]. constructor; [|constructor; [|constructor]];
    unfold dgb3_as; cbn [d3_ids d3_link d3_cgs]; (split; [reflexivity|]); (split; [reflexivity|]); eexists; (split; [|reflexivity]);
    repeat constructor; apply cg3w_as; reflexivity.
Qed.

Definition run3w : option meas3 := match init_meas3 new_id3 hd3w with Ok m => run3 ops3w m | _ => None end.

(** The file after [j] writes of the last call: the description and what the reader tells about the
    two data groups. *)
Definition look3w (j : nat) : option (list (list N) * list (option (list event))) :=
  match run3w with
  | Some m =>
      match stopped3 op3w j m with
      | Some f =>
          match read_file3 3 (f ++ [255]) with
          | Ok (_, h) => Some ([t3_date (h3_time h); map (fun g => g3_nof g) (concat (map d3_cgs (h3_dgs h)))],
                               map (fun d => read_data3 (dgroup3_of d) (fun _ => true) 2000 (f ++ [255])) (h3_dgs h))
          | _ => None
          end
      | None => None
      end
  | None => None
  end.

Example C74_witness : hd3_as hd3w hd3w' /\ hd3_fuel 3 hd3w /\ new3 hd3w /\ calls3_ok hd3w (ops3w ++ [op3w]) /\ in_turn3 (ops3w ++ [op3w]) /\
  (forall k d, In k (sources3 (ops3w ++ [op3w])) -> nth_error (h3_dgs hd3w) k = Some d -> records3_ok d (saved3 k (ops3w ++ [op3w]))) /\
  look3w 4 = Some ([[49]; [2; 1; 2]],
    [Some [Ev 0 1 [7; 8]; Ev 0 2 [9]; Ev 1 1 [5; 6]]; Some [Ev 0 0 [1; 2]; Ev 1 0 [3; 4]]]).
Proof.
  split; [apply hd3w_as|]. split; [split; [cbn; lia|]; repeat constructor; cbn; lia|].
  split; [repeat constructor|].
  split.
  { split.
    - intros k I. cbn in I. destruct I as [<-|[<-|[<-|[]]]]; cbn; lia.
    - intros t I. cbn in I. destruct I as [E|[E|[E|[E|[E|[]]]]]]; try discriminate. injection E as <-.
      unfold time3_ok, str3_ok. cbn [t3_date t3_time t3_timer t3_ns t3_offset t3_quality]. parts_w. }
  split.
  { intros l1 k l2 E I. cbn in E. destruct l1 as [|a [|b [|c [|e l1]]]]; cbn in E; try discriminate.
    - destruct I.
    - injection E as <- <- _. reflexivity.
    - injection E as <- <- <- _. destruct I as [I|[I|[]]]; discriminate. }
  split.
  { intros k d I E. cbn in I. destruct I as [<-|[<-|[<-|[]]]]; injection E as <-.
    - split; [|split].
      + constructor; cbn; try discriminate; auto.
        * repeat constructor; cbn; intuition discriminate.
        * intros g [<-|[<-|[]]]; cbn; lia.
      + intros g [<-|[<-|[]]]; reflexivity.
      + repeat constructor; [exists (group3_of (cg3w 1 2))|exists (group3_of (cg3w 2 1))|exists (group3_of (cg3w 1 2))]; cbn; auto.
    - split; [|split].
      + constructor; cbn; try discriminate; auto.
        * repeat constructor; cbn; intuition discriminate.
        * intros g [<-|[<-|[]]]; cbn; lia.
      + intros g [<-|[<-|[]]]; reflexivity.
      + repeat constructor; [exists (group3_of (cg3w 1 2))|exists (group3_of (cg3w 2 1))|exists (group3_of (cg3w 1 2))]; cbn; auto.
    - split; [|split].
      + constructor; cbn; try discriminate; auto.
        * repeat constructor; cbn; intuition discriminate.
        * intros _. eexists. split; reflexivity.
        * intros g [<-|[]]; cbn; lia.
      + intros g [<-|[]]; reflexivity.
      + repeat constructor; exists (group3_of (cg3w 0 2)); cbn; auto. }
  vm_compute. reflexivity.
Qed.

(** Stopped before the counter is written, the records of the call are not delivered; those of the
    calls before are. *)
Example C75_witness : look3w 2 = Some ([[49]; [2; 1; 0]],
    [Some [Ev 0 1 [7; 8]; Ev 0 2 [9]; Ev 1 1 [5; 6]]; Some []]).
Proof. vm_compute. reflexivity. Qed.
