(** Proofs about range and text conversions, copies and saved conversions. *)
From Verif Require Import Base BlockModel ConvModel ConvSpec ConvProofs ConvProofs2.
From Coq Require Import Reals Lra.
From Flocq Require Import Core.Core IEEE754.BinarySingleNaN.
Local Open Scope N_scope.

(* ------------------------------------------------------------------ *)
(** ** Ranges *)

Lemma in_range_true : forall dt k x lo hi, kind_of dt k -> finite x -> finite lo -> finite hi ->
  (in_range dt x lo hi = true <-> inside k (rv x) (rv lo) (rv hi)).
Proof.
  intros dt k x lo hi K Fx Fl Fh. unfold in_range, is_integer, is_float.
  rewrite !fle_ok, flt_ok by auto.
  assert (A : Rle_bool (rv lo) (rv x) = true <-> (rv lo <= rv x)%R).
  { destruct (Rle_bool_spec (rv lo) (rv x)); split; intro; auto; try discriminate; lra. }
  assert (B : Rle_bool (rv x) (rv hi) = true <-> (rv x <= rv hi)%R).
  { destruct (Rle_bool_spec (rv x) (rv hi)); split; intro; auto; try discriminate; lra. }
  assert (C : Rlt_bool (rv x) (rv hi) = true <-> (rv x < rv hi)%R).
  { destruct (Rlt_bool_spec (rv x) (rv hi)); split; intro; auto; try discriminate; lra. }
  destruct k; cbn [kind_of inside] in *.
  - replace (dt <=? 3) with true by lia. replace (3 <? dt) with false by lia.
    rewrite andb_false_l, orb_false_r, andb_true_l, andb_true_iff, A, B. tauto.
  - replace (dt <=? 3) with false by lia. replace (3 <? dt) with true by lia.
    replace (dt <=? 5) with true by lia. rewrite !andb_false_l, orb_false_l, !andb_true_l.
    rewrite andb_true_iff, A, C. tauto.
Qed.

Lemma in_range_false : forall dt k x lo hi, kind_of dt k -> finite x -> finite lo -> finite hi ->
  ~ inside k (rv x) (rv lo) (rv hi) -> in_range dt x lo hi = false.
Proof.
  intros dt k x lo hi K Fx Fl Fh N. destruct (in_range dt x lo hi) eqn:E; auto.
  apply (in_range_true dt k) in E; auto. contradiction.
Qed.

Lemma triples_length : forall tbl d, length (triples tbl d) = (3 * length tbl + 1)%nat.
Proof.
  intros. unfold triples. rewrite app_length. cbn [length]. f_equal.
  induction tbl as [|e r IH]; [reflexivity|]. cbn [flat_map app length]. lia.
Qed.

Lemma param_triples : forall tbl d i lo hi v, nth_error tbl i = Some (lo, hi, v) ->
  param (triples tbl d) (3 * i) = lo /\ param (triples tbl d) (3 * i + 1) = hi /\
  param (triples tbl d) (3 * i + 2) = v.
Proof.
  induction tbl as [|e r IH]; intros d i lo hi v H; [destruct i; discriminate|].
  change (triples (e :: r) d)
    with (PD (fst (fst e)) :: PD (snd (fst e)) :: PD (snd e) :: triples r d).
  destruct i as [|i].
  - cbn [nth_error] in H. inversion H; subst. repeat split; reflexivity.
  - cbn [nth_error] in H. replace (3 * S i)%nat with (S (S (S (3 * i)))) by lia.
    cbn [Nat.add]. exact (IH d i lo hi v H).
Qed.

Definition finite_bounds (tbl : list (dbl * dbl * dbl)) : Prop :=
  Forall (fun e => finite (fst (fst e)) /\ finite (snd (fst e))) tbl.

Lemma range_skip : forall dt kd tbl d x m k n, kind_of dt kd -> finite x -> finite_bounds tbl ->
  (n + m <= length tbl)%nat ->
  (forall j a, (n <= j < n + m)%nat -> nth_error tbl j = Some a ->
     ~ inside kd (rv x) (rv (fst (fst a))) (rv (snd (fst a)))) ->
  range_loop dt (triples tbl d) x (m + k) n = range_loop dt (triples tbl d) x k (n + m).
Proof.
  intros dt kd tbl d x m. induction m as [|m IH]; intros k n K F B L H.
  - rewrite Nat.add_0_r. reflexivity.
  - cbn [Nat.add range_loop]. rewrite triples_length.
    destruct (Nat.leb_spec (3 * length tbl + 1) (3 * n + 2)) as [C|_]; [lia|].
    destruct (nth_error tbl n) as [[[lo hi] v]|] eqn:En.
    2:{ apply nth_error_None in En. lia. }
    destruct (param_triples tbl d n lo hi v En) as (-> & -> & ->).
    pose proof En as Bn. apply nth_error_In in Bn. unfold finite_bounds in B.
    rewrite Forall_forall in B. destruct (B _ Bn) as [Fl Fh]. cbn [fst snd] in Fl, Fh.
    assert (N : ~ inside kd (rv x) (rv lo) (rv hi)) by (apply (H n (lo, hi, v)); [lia|exact En]).
    rewrite (in_range_false dt kd) by auto.
    replace (n + S m)%nat with (S n + m)%nat by lia. apply IH; auto.
    + unfold finite_bounds. rewrite Forall_forall. exact B.
    + lia.
    + intros j a Hj. apply H. lia.
Qed.

Lemma triples_nonempty : forall tbl d, exists a l, triples tbl d = a :: l.
Proof.
  intros. pose proof (triples_length tbl d). destruct (triples tbl d) as [|a l].
  - cbn [length] in H. lia.
  - eauto.
Qed.

Lemma range_hit : forall dt kd nof tbl d x i lo hi v, kind_of dt kd -> finite x ->
  finite_bounds tbl -> N.of_nat (length tbl) <= nof ->
  first_at (fun e => inside kd (rv x) (rv (fst (fst e))) (rv (snd (fst e)))) tbl i (lo, hi, v) ->
  range_to_value dt nof (triples tbl d) x = Ok (Some v).
Proof.
  intros dt kd nof tbl d x i lo hi v K F B Ln (H & In & Min). unfold range_to_value.
  destruct (triples_nonempty tbl d) as (a0 & l0 & Et).
  assert (Li : (i < length tbl)%nat) by (apply nth_error_Some; congruence).
  assert (E : range_loop dt (triples tbl d) x (N.to_nat nof) 0 = Some v).
  { rewrite (nof_split nof (length tbl) i Ln Li).
    rewrite (range_skip dt kd); auto; [|lia|intros j a Hj; apply Min; lia].
    cbn [Nat.add range_loop]. rewrite triples_length.
    destruct (Nat.leb_spec (3 * length tbl + 1) (3 * i + 2)) as [C|_]; [lia|].
    destruct (param_triples tbl d i lo hi v H) as (-> & -> & ->).
    unfold finite_bounds in B. rewrite Forall_forall in B.
    destruct (B _ (nth_error_In _ _ H)) as [Fl Fh]. cbn [fst snd] in *.
    apply (in_range_true dt kd) in In; auto. rewrite In. reflexivity. }
  rewrite E. rewrite Et. reflexivity.
Qed.

Lemma range_miss : forall dt kd nof tbl d x, kind_of dt kd -> finite x ->
  finite_bounds tbl -> N.of_nat (length tbl) <= nof ->
  nowhere (fun e => inside kd (rv x) (rv (fst (fst e))) (rv (snd (fst e)))) tbl ->
  range_to_value dt nof (triples tbl d) x = Ok (Some d).
Proof.
  intros dt kd nof tbl d x K F B Ln Min. unfold range_to_value.
  destruct (triples_nonempty tbl d) as (a0 & l0 & Et).
  assert (E : range_loop dt (triples tbl d) x (N.to_nat nof) 0 = None).
  { replace (N.to_nat nof) with (length tbl + (N.to_nat nof - length tbl))%nat by lia.
    rewrite (range_skip dt kd); auto.
    - destruct (N.to_nat nof - length tbl)%nat; [reflexivity|]. cbn [range_loop].
      rewrite triples_length.
      destruct (Nat.leb_spec (3 * length tbl + 1) (3 * (0 + length tbl) + 2)) as [C|C];
        [reflexivity|lia].
    - intros j a Hj Ha. apply Min. eapply nth_error_In; eauto. }
  rewrite E. assert (Bk : back (triples tbl d) = Ok (Some d)).
  { unfold back, triples. rewrite last_last. reflexivity. }
  rewrite Et in *. exact Bk.
Qed.

(* ------------------------------------------------------------------ *)
(** ** The chosen reference *)

(** What a reference shows. *)
Definition shows (fp fl fe : dbl -> dbl) (fm : dbl -> N -> list N) (x : dbl) (r : cref)
  : res (option (list N)) :=
  match r with
  | RNone => Ok (Some [])
  | RText BTx t => Ok (Some (trim t))
  | RText _ _ => Ok None
  | RConv c => convert_str fp fl fe fm c x
  | ROther => Ok None
  end.

Definition pick fp fl fe fm (x : dbl) (refs : list cref) (i : option nat) :
  res (option (list N)) :=
  match refs with
  | [] => Ok None
  | _ =>
      let i := match i with Some i => i | None => (length refs - 1)%nat end in
      nth i (map (shows fp fl fe fm x) refs) (Ok None)
  end.

Lemma convert_str_eq : forall fp fl fe fm c x, convert_str fp fl fe fm c x =
  if c_type c =? tText then
    if c_mdf4 c then
      pick fp fl fe fm x (c_refs c) (text_index (c_vals c) x (N.to_nat (c_nof c)) 0)
    else Ok (text3 (c_texts c) x)
  else if c_type c =? tRangeText then
    if c_mdf4 c then
      pick fp fl fe fm x (c_refs c) (range_index (c_dtype c) (c_vals c) x (N.to_nat (c_nof c)) 0)
    else
      match c_ranges c with
      | [] => Ok None
      | (_, _, t0) :: r =>
          match ranges3 (c_dtype c) r x with Some t => Ok (Some t) | None => Ok (Some t0) end
      end
  else show fm c (convert_num fp fl fe c x).
Proof.
  intros fp fl fe fm c x. destruct c as [mdf4 typ nof vals dt dec texts ranges refs].
  cbn [c_type c_mdf4 c_refs c_vals c_nof c_dtype c_texts c_ranges].
  cbn [convert_str].
  assert (S : (fix shown (l : list cref) : list (res (option (list N))) :=
           match l with
           | [] => []
           | r :: rest =>
               match r with
               | RNone => Ok (Some [])
               | RText BTx t => Ok (Some (trim t))
               | RText _ _ => Ok None
               | RConv c' => convert_str fp fl fe fm c' x
               | ROther => Ok None
               end :: shown rest
           end) refs = map (shows fp fl fe fm x) refs).
  { induction refs as [|r rest IH]; [reflexivity|]. cbn [map]. rewrite <- IH.
    destruct r as [|[]| |]; reflexivity. }
  rewrite S. reflexivity.
Qed.

Lemma pick_nth : forall fp fl fe fm x refs i r, nth_error refs i = Some r ->
  pick fp fl fe fm x refs (Some i) = shows fp fl fe fm x r.
Proof.
  intros fp fl fe fm x refs i r H. unfold pick. destruct refs as [|a l]; [destruct i; discriminate|].
  cbv zeta. apply nth_error_nth. apply map_nth_error. exact H.
Qed.

Lemma pick_last : forall fp fl fe fm x refs r,
  pick fp fl fe fm x (refs ++ [r]) None = shows fp fl fe fm x r.
Proof.
  intros. unfold pick. destruct (refs ++ [r]) as [|a l] eqn:E; [destruct refs; discriminate|].
  rewrite <- E. cbv zeta. apply nth_error_nth. apply map_nth_error.
  rewrite app_length. cbn [length]. replace (length refs + 1 - 1)%nat with (length refs) by lia.
  rewrite nth_error_app2, Nat.sub_diag by lia. reflexivity.
Qed.

(** Keys. *)
Lemma param_PD : forall keys i k, nth_error keys i = Some k -> param (map PD keys) i = k.
Proof. intros. unfold param. erewrite map_nth_error by eauto. reflexivity. Qed.

Lemma text_skip : forall keys x m k n, finite x -> Forall finite keys ->
  (n + m <= length keys)%nat ->
  (forall j a, (n <= j < n + m)%nat -> nth_error keys j = Some a -> rv a <> rv x) ->
  text_index (map PD keys) x (m + k) n = text_index (map PD keys) x k (n + m).
Proof.
  intros keys x m. induction m as [|m IH]; intros k n F B L H.
  - rewrite Nat.add_0_r. reflexivity.
  - cbn [Nat.add text_index]. rewrite map_length.
    destruct (Nat.leb_spec (length keys) n) as [C|_]; [lia|].
    destruct (nth_error keys n) as [a|] eqn:En.
    2:{ apply nth_error_None in En. lia. }
    rewrite (param_PD keys n a En). pose proof En as Bn. apply nth_error_In in Bn.
    assert (rv a <> rv x) by (apply (H n); [lia|exact En]).
    rewrite Forall_forall in B. rewrite feq_no by auto.
    replace (n + S m)%nat with (S n + m)%nat by lia. apply IH; auto.
    + rewrite Forall_forall. exact B.
    + lia.
    + intros j b Hj. apply H. lia.
Qed.

Lemma text_hit : forall nof keys x i a, finite x -> Forall finite keys ->
  N.of_nat (length keys) <= nof -> first_at (fun k => rv k = rv x) keys i a ->
  text_index (map PD keys) x (N.to_nat nof) 0 = Some i.
Proof.
  intros nof keys x i a F B Ln (H & E & Min).
  assert (Li : (i < length keys)%nat) by (apply nth_error_Some; congruence).
  rewrite (nof_split nof (length keys) i Ln Li).
  rewrite text_skip; auto; [|lia|intros j b Hj; apply Min; lia].
  cbn [Nat.add text_index]. rewrite map_length.
  destruct (Nat.leb_spec (length keys) i) as [C|_]; [lia|].
  rewrite (param_PD keys i a H). rewrite Forall_forall in B.
  rewrite feq_yes; auto. apply B. eapply nth_error_In; eauto.
Qed.

Lemma text_miss : forall nof keys x, finite x -> Forall finite keys ->
  N.of_nat (length keys) <= nof -> nowhere (fun k => rv k = rv x) keys ->
  text_index (map PD keys) x (N.to_nat nof) 0 = None.
Proof.
  intros nof keys x F B Ln Min.
  replace (N.to_nat nof) with (length keys + (N.to_nat nof - length keys))%nat by lia.
  rewrite text_skip; auto.
  - destruct (N.to_nat nof - length keys)%nat; [reflexivity|]. cbn [text_index].
    rewrite map_length.
    destruct (Nat.leb_spec (length keys) (0 + length keys)) as [C|C]; [reflexivity|lia].
  - intros j b Hj Hb. apply Min. eapply nth_error_In; eauto.
Qed.

(** Ranges of texts. *)
Definition finite_pairs (tbl : list (dbl * dbl)) : Prop :=
  Forall (fun e => finite (fst e) /\ finite (snd e)) tbl.

Lemma w16_id : forall n, n < 65536 -> w16 n = n.
Proof. intros. unfold w16. apply N.mod_small. lia. Qed.

Lemma range_text_skip : forall dt kd tbl x m k n, kind_of dt kd -> finite x -> finite_pairs tbl ->
  2 * N.of_nat (length tbl) < 65536 -> (n + m <= length tbl)%nat ->
  (forall j a, (n <= j < n + m)%nat -> nth_error tbl j = Some a ->
     ~ inside kd (rv x) (rv (fst a)) (rv (snd a))) ->
  range_index dt (bounds tbl) x (m + k) n = range_index dt (bounds tbl) x k (n + m).
Proof.
  intros dt kd tbl x m. induction m as [|m IH]; intros k n K F B S L H.
  - rewrite Nat.add_0_r. reflexivity.
  - cbn [Nat.add range_index]. unfold bounds. rewrite pairs_length.
    rewrite (w16_id (N.of_nat (2 * n))), Nat2N.id by lia.
    replace (N.to_nat (w16 (N.of_nat (2 * n) + 1))) with (2 * n + 1)%nat
      by (rewrite w16_id; lia).
    destruct (Nat.leb_spec (2 * length tbl) (2 * n + 1)) as [C|_]; [lia|].
    destruct (nth_error tbl n) as [[lo hi]|] eqn:En.
    2:{ apply nth_error_None in En. lia. }
    destruct (param_pairs tbl n lo hi En) as (-> & ->).
    pose proof En as Bn. apply nth_error_In in Bn. unfold finite_pairs in B.
    rewrite Forall_forall in B. destruct (B _ Bn) as [Fl Fh]. cbn [fst snd] in Fl, Fh.
    assert (N : ~ inside kd (rv x) (rv lo) (rv hi)) by (apply (H n (lo, hi)); [lia|exact En]).
    rewrite (in_range_false dt kd) by auto.
    replace (n + Datatypes.S m)%nat with (Datatypes.S n + m)%nat by lia. apply IH; auto.
    + unfold finite_pairs. rewrite Forall_forall. exact B.
    + lia.
    + intros j a Hj. apply H. lia.
Qed.

Lemma range_text_hit : forall dt kd nof tbl x i lo hi, kind_of dt kd -> finite x ->
  finite_pairs tbl -> 2 * N.of_nat (length tbl) < 65536 -> N.of_nat (length tbl) <= nof ->
  first_at (fun e => inside kd (rv x) (rv (fst e)) (rv (snd e))) tbl i (lo, hi) ->
  range_index dt (bounds tbl) x (N.to_nat nof) 0 = Some i.
Proof.
  intros dt kd nof tbl x i lo hi K F B S Ln (H & In & Min).
  assert (Li : (i < length tbl)%nat) by (apply nth_error_Some; congruence).
  rewrite (nof_split nof (length tbl) i Ln Li).
  rewrite (range_text_skip dt kd); auto; [|lia|intros j a Hj; apply Min; lia].
  cbn [Nat.add range_index]. unfold bounds. rewrite pairs_length.
  rewrite (w16_id (N.of_nat (2 * i))), Nat2N.id by lia.
  replace (N.to_nat (w16 (N.of_nat (2 * i) + 1))) with (2 * i + 1)%nat by (rewrite w16_id; lia).
  destruct (Nat.leb_spec (2 * length tbl) (2 * i + 1)) as [C|_]; [lia|].
  destruct (param_pairs tbl i lo hi H) as (-> & ->).
  unfold finite_pairs in B. rewrite Forall_forall in B.
  destruct (B _ (nth_error_In _ _ H)) as [Fl Fh]. cbn [fst snd] in *.
  apply (in_range_true dt kd) in In; auto. rewrite In. reflexivity.
Qed.

Lemma range_text_miss : forall dt kd nof tbl x, kind_of dt kd -> finite x ->
  finite_pairs tbl -> 2 * N.of_nat (length tbl) < 65536 -> N.of_nat (length tbl) <= nof ->
  nowhere (fun e => inside kd (rv x) (rv (fst e)) (rv (snd e))) tbl ->
  range_index dt (bounds tbl) x (N.to_nat nof) 0 = None.
Proof.
  intros dt kd nof tbl x K F B S Ln Min.
  replace (N.to_nat nof) with (length tbl + (N.to_nat nof - length tbl))%nat by lia.
  rewrite (range_text_skip dt kd); auto.
  - destruct (N.to_nat nof - length tbl)%nat eqn:Ed; [reflexivity|]. cbn [range_index].
    unfold bounds. rewrite pairs_length.
    rewrite (w16_id (N.of_nat (2 * (0 + length tbl)))), Nat2N.id by lia.
    rewrite w16_id by lia.
    destruct (Nat.leb_spec (2 * length tbl)
                (N.to_nat (N.of_nat (2 * (0 + length tbl)) + 1))) as [C|C]; [reflexivity|lia].
  - intros j a Hj Ha. apply Min. eapply nth_error_In; eauto.
Qed.

(* ------------------------------------------------------------------ *)
(** ** Texts as keys *)

Lemma tv_skip : forall keys rest s m k n, (n + m <= length keys)%nat ->
  (forall j a, (n <= j < n + m)%nat -> nth_error keys j = Some a -> trim a <> s) ->
  text_value_index (map (RText BTx) keys ++ rest) s (m + k) n =
  text_value_index (map (RText BTx) keys ++ rest) s k (n + m).
Proof.
  intros keys rest s m. induction m as [|m IH]; intros k n L H.
  - rewrite Nat.add_0_r. reflexivity.
  - cbn [Nat.add text_value_index].
    destruct (nth_error keys n) as [a|] eqn:En.
    2:{ apply nth_error_None in En. lia. }
    rewrite nth_error_app1 by (rewrite map_length; lia).
    rewrite (map_nth_error _ _ _ En).
    assert (trim a <> s) by (apply (H n); [lia|exact En]).
    destruct (list_eq_dec N.eq_dec (trim a) s) as [C|_]; [contradiction|].
    replace (n + S m)%nat with (S n + m)%nat by lia. apply IH; [lia|].
    intros j b Hj. apply H. lia.
Qed.

Lemma tv_hit : forall nof keys s i a, N.of_nat (length keys) <= nof ->
  first_at (fun t => trim t = s) keys i a ->
  text_value_index (map (RText BTx) keys) s (N.to_nat nof) 0 = Some (Some i).
Proof.
  intros nof keys s i a Ln (H & E & Min).
  assert (Li : (i < length keys)%nat) by (apply nth_error_Some; congruence).
  rewrite <- (app_nil_r (map _ keys)).
  rewrite (nof_split nof (length keys) i Ln Li).
  rewrite tv_skip; [|lia|intros j b Hj; apply Min; lia].
  cbn [Nat.add text_value_index]. rewrite app_nil_r, (map_nth_error _ _ _ H).
  destruct (list_eq_dec N.eq_dec (trim a) s); [reflexivity|contradiction].
Qed.

Lemma tv_miss : forall nof keys s, N.of_nat (length keys) <= nof ->
  nowhere (fun t => trim t = s) keys ->
  text_value_index (map (RText BTx) keys) s (N.to_nat nof) 0 = Some None.
Proof.
  intros nof keys s Ln Min.
  rewrite <- (app_nil_r (map _ keys)).
  replace (N.to_nat nof) with (length keys + (N.to_nat nof - length keys))%nat by lia.
  rewrite tv_skip.
  - destruct (N.to_nat nof - length keys)%nat; [reflexivity|]. cbn [text_value_index].
    rewrite app_nil_r.
    destruct (nth_error (map (RText BTx) keys) (0 + length keys)) eqn:E; [|reflexivity].
    assert (C : (0 + length keys < length (map (RText BTx) keys))%nat)
      by (apply nth_error_Some; congruence). rewrite map_length in C. lia.
  - lia.
  - intros j b Hj Hb. apply Min. eapply nth_error_In; eauto.
Qed.

Lemma last_param : forall (l : list dbl) d, param (map PD (l ++ [d])) (length l) = d.
Proof. intros. apply param_PD. rewrite nth_error_app2, Nat.sub_diag by lia. reflexivity. Qed.

Lemma text_value_hit : forall c keys values d s i a v, c_mdf4 c = true ->
  c_refs c = map (RText BTx) keys -> c_vals c = map PD (values ++ [d]) ->
  N.of_nat (length keys) <= c_nof c ->
  first_at (fun t => trim t = s) keys i a -> nth_error values i = Some v ->
  text_to_value c s = Some v.
Proof.
  intros c keys values d s i a v M R V Ln H Hv. unfold text_to_value. rewrite M, R.
  rewrite (tv_hit (c_nof c) keys s i a Ln H).
  assert (Lv : (i < length values)%nat) by (apply nth_error_Some; congruence).
  assert (E : c_vals c <> []) by (rewrite V, map_app; destruct values; discriminate).
  destruct (c_vals c) as [|p0 l0] eqn:Ec; [congruence|]. rewrite V, map_length, app_length.
  cbn [length]. replace (i <? length values + 1)%nat with true by lia.
  f_equal. apply param_PD. rewrite nth_error_app1 by lia. exact Hv.
Qed.

Lemma text_value_miss : forall c keys values d s, c_mdf4 c = true ->
  c_refs c = map (RText BTx) keys -> c_vals c = map PD (values ++ [d]) ->
  N.of_nat (length keys) <= c_nof c -> N.of_nat (length values) < 65536 ->
  nowhere (fun t => trim t = s) keys ->
  text_to_value c s = Some d.
Proof.
  intros c keys values d s M R V Ln Lw H. unfold text_to_value. rewrite M, R.
  rewrite (tv_miss (c_nof c) keys s Ln H).
  assert (E : c_vals c <> []) by (rewrite V, map_app; destruct values; discriminate).
  destruct (c_vals c) as [|p0 l0] eqn:Ec; [congruence|]. rewrite V, map_length, app_length.
  cbn [length]. replace (length values + 1 - 1)%nat with (length values) by lia.
  rewrite w16_id, Nat2N.id by lia.
  replace (length values <? length values + 1)%nat with true by lia.
  f_equal. apply last_param.
Qed.

(** Key and translation references. *)
Definition entries (tbl : list (list N * list N)) : list cref :=
  flat_map (fun e => [RText BTx (fst e); RText BTx (snd e)]) tbl.

Lemma entries_length : forall tbl, length (entries tbl) = (2 * length tbl)%nat.
Proof.
  induction tbl as [|e r IH]; [reflexivity|]. unfold entries in *. cbn [flat_map app length]. lia.
Qed.

Lemma entries_nth : forall tbl i k v rest, nth_error tbl i = Some (k, v) ->
  nth_error (entries tbl ++ rest) (2 * i) = Some (RText BTx k) /\
  nth_error (entries tbl ++ rest) (2 * i + 1) = Some (RText BTx v).
Proof.
  induction tbl as [|e r IH]; intros i k v rest H; [destruct i; discriminate|].
  change (entries (e :: r) ++ rest)
    with (RText BTx (fst e) :: RText BTx (snd e) :: (entries r ++ rest)).
  destruct i as [|i].
  - cbn [nth_error] in H. inversion H; subst. split; reflexivity.
  - cbn [nth_error] in H. replace (2 * S i)%nat with (S (S (2 * i))) by lia.
    replace (S (S (2 * i)) + 1)%nat with (S (S (2 * i + 1))) by lia. exact (IH i k v rest H).
Qed.

Lemma tt_skip : forall tbl d s m k n, (n + m <= length tbl)%nat ->
  (forall j a, (n <= j < n + m)%nat -> nth_error tbl j = Some a -> trim (fst a) <> s) ->
  text_text_index (entries tbl ++ [d]) s (m + k) (2 * n) =
  text_text_index (entries tbl ++ [d]) s k (2 * (n + m)).
Proof.
  intros tbl d s m. induction m as [|m IH]; intros k n L H.
  - rewrite Nat.add_0_r. reflexivity.
  - cbn [Nat.add text_text_index]. rewrite app_length, entries_length. cbn [length].
    replace (2 * n + 1 <? 2 * length tbl + 1)%nat with true by lia.
    destruct (nth_error tbl n) as [[a b]|] eqn:En.
    2:{ apply nth_error_None in En. lia. }
    destruct (entries_nth tbl n a b [d] En) as [-> _].
    assert (trim a <> s) by (apply (H n (a, b)); [lia|exact En]).
    destruct (list_eq_dec N.eq_dec (trim a) s) as [C|_]; [contradiction|].
    replace (2 * n + 2)%nat with (2 * S n)%nat by lia.
    replace (n + S m)%nat with (S n + m)%nat by lia. apply IH; [lia|].
    intros j e Hj. apply H. lia.
Qed.

Lemma text_text_hit : forall c tbl d s i k v, c_mdf4 c = true ->
  c_refs c = entries tbl ++ [d] -> first_at (fun e => trim (fst e) = s) tbl i (k, v) ->
  text_to_text c s = Some (trim v).
Proof.
  intros c tbl d s i k v M R (H & E & Min). cbn [fst] in E. unfold text_to_text. rewrite M, R.
  assert (Li : (i < length tbl)%nat) by (apply nth_error_Some; congruence).
  assert (X : text_text_index (entries tbl ++ [d]) s (length (entries tbl ++ [d])) 0
              = Some (Some (2 * i + 1)%nat)).
  { rewrite app_length, entries_length. cbn [length].
    replace (2 * length tbl + 1)%nat with (i + S (2 * length tbl - i))%nat by lia.
    pose proof (tt_skip tbl d s i (S (2 * length tbl - i)) 0) as T. change (2 * 0)%nat with 0%nat in T.
    rewrite T; [|lia|intros j b Hj; apply Min; lia]. clear T.
    cbn [text_text_index]. rewrite app_length, entries_length. cbn [length Nat.add].
    replace (2 * i + 1 <? 2 * length tbl + 1)%nat with true by lia.
    destruct (entries_nth tbl i k v [d] H) as [-> _].
    destruct (list_eq_dec N.eq_dec (trim k) s); [reflexivity|contradiction]. }
  destruct (entries tbl ++ [d]) as [|r0 l0] eqn:Er.
  { destruct (entries tbl); discriminate. }
  rewrite <- Er in *. rewrite X. destruct (entries_nth tbl i k v [d] H) as [_ ->]. reflexivity.
Qed.

Lemma text_text_miss : forall c tbl d s, c_mdf4 c = true ->
  c_refs c = entries tbl ++ [RText BTx d] -> nowhere (fun e => trim (fst e) = s) tbl ->
  text_to_text c s = Some (trim d).
Proof.
  intros c tbl d s M R Min. unfold text_to_text. rewrite M, R.
  set (dr := RText BTx d) in *.
  assert (X : text_text_index (entries tbl ++ [dr]) s (length (entries tbl ++ [dr])) 0
              = Some None).
  { rewrite app_length, entries_length. cbn [length].
    replace (2 * length tbl + 1)%nat with (length tbl + S (length tbl))%nat by lia.
    pose proof (tt_skip tbl dr s (length tbl) (S (length tbl)) 0) as T.
    change (2 * 0)%nat with 0%nat in T.
    rewrite T; [|lia|intros j b Hj Hb; apply Min; eapply nth_error_In; eauto]. clear T.
    cbn [text_text_index]. rewrite app_length, entries_length. cbn [length Nat.add].
    replace (2 * length tbl + 1 <? 2 * length tbl + 1)%nat with false by lia. reflexivity. }
  destruct (entries tbl ++ [dr]) as [|r0 l0] eqn:Er.
  { destruct (entries tbl); discriminate. }
  rewrite <- Er in *. rewrite X. rewrite app_length. cbn [length].
  replace (length (entries tbl) + 1 - 1)%nat with (length (entries tbl)) by lia.
  rewrite nth_error_app2, Nat.sub_diag by lia. reflexivity.
Qed.

(* ------------------------------------------------------------------ *)
(** ** Copies *)

(** The numeric result depends on type, count, values and data type only. *)
Lemma num_same : forall fp fl fe a b x, c_type a = c_type b -> c_nof a = c_nof b ->
  c_vals a = c_vals b -> c_dtype a = c_dtype b ->
  convert_num fp fl fe a x = convert_num fp fl fe b x.
Proof. intros fp fl fe a b x T N V D. unfold convert_num. rewrite T, N, V, D. reflexivity. Qed.

Lemma copy_num : forall fp fl fe dst c x,
  convert_num fp fl fe (copy_from dst c) x = convert_num fp fl fe c x.
Proof. intros. apply num_same; reflexivity. Qed.

Lemma copy_str : forall fp fl fe fm dst c x, c_mdf4 dst = c_mdf4 c ->
  (c_type c = tText \/ c_type c = tRangeText -> c_mdf4 c = false) ->
  convert_str fp fl fe fm (copy_from dst c) x = convert_str fp fl fe fm c x.
Proof.
  intros fp fl fe fm dst c x M H. rewrite !convert_str_eq.
  change (c_type (copy_from dst c)) with (c_type c).
  change (c_mdf4 (copy_from dst c)) with (c_mdf4 dst). rewrite M.
  change (c_texts (copy_from dst c)) with (c_texts c).
  change (c_ranges (copy_from dst c)) with (c_ranges c).
  change (c_dtype (copy_from dst c)) with (c_dtype c).
  rewrite copy_num.
  destruct (N.eqb_spec (c_type c) tText) as [E|_].
  { rewrite H by auto. reflexivity. }
  destruct (N.eqb_spec (c_type c) tRangeText) as [E|_].
  { rewrite H by auto. reflexivity. }
  destruct (convert_num fp fl fe c x) as [[v|]| |]; reflexivity.
Qed.

(* ------------------------------------------------------------------ *)
(** ** Saved conversions *)

(** Induction over nested conversions. *)
Fixpoint conv_nest (P : conv -> Prop)
  (H : forall c, (forall c', In (RConv c') (c_refs c) -> P c') -> P c) (c : conv) {struct c} : P c.
Proof.
  refine (H c _). destruct c as [m t n v d e tx rg refs]. cbn [c_refs].
  induction refs as [|r rest IH].
  - intros c' [].
  - intros c' [E|I].
    + destruct r as [| |c0|]; try discriminate. pose proof (conv_nest P H c0) as P0.
      inversion E as [E1]. rewrite <- E1. exact P0.
    + apply IH. exact I.
Defined.

(** Texts that survive as such: no zero, no outer white space, not starting with '<'. *)
Definition storable (t : list N) : Prop := ~ In 0 t /\ trim t = t /\ hd 0 t <> 60.

Inductive saveable : conv -> Prop :=
| saveable_intro : forall c, c_mdf4 c = true -> N.of_nat (length (c_vals c)) < 65536 ->
    Forall saveable_ref (c_refs c) -> saveable c
with saveable_ref : cref -> Prop :=
| SRNone : saveable_ref RNone
| SRText : forall b t, storable t -> saveable_ref (RText b t)
| SRConv : forall c, saveable c -> saveable_ref (RConv c).

(** [c] and all conversions it refers to belong to a channel of data type [dt]. *)
Inductive typed (dt : N) : conv -> Prop :=
| typed_intro : forall c, c_dtype c = dt ->
    (forall c', In (RConv c') (c_refs c) -> typed dt c') -> typed dt c.

Definition save_ref (r : cref) : cref :=
  match r with
  | RText _ t => RText (if (hd 0 t =? 60) then BMd else BTx) t
  | RConv c => RConv (written c)
  | _ => r
  end.
Definition load_ref (dt : N) (r : cref) : cref :=
  match r with
  | RText BTx t => RText BTx (trim (cut0 t))
  | RConv c => RConv (reread dt c)
  | _ => RNone
  end.

Lemma written_eq : forall c, written c =
  mkConv (c_mdf4 c) (c_type c) (w16 (N.of_nat (length (c_vals c)))) (c_vals c) (c_dtype c)
    (c_decimals c) (c_texts c) (c_ranges c) (map save_ref (c_refs c)).
Proof.
  destruct c as [m t n v d e tx rg refs].
  cbn [c_mdf4 c_type c_vals c_dtype c_decimals c_texts c_ranges c_refs written]. f_equal.
  induction refs as [|r rest IH]; [reflexivity|]. cbn [map]. rewrite <- IH.
  destruct r; reflexivity.
Qed.

Lemma reread_eq : forall dt c, reread dt c =
  mkConv (c_mdf4 c) (c_type c) (c_nof c) (c_vals c) dt
    (c_decimals c) [] [] (map (load_ref dt) (c_refs c)).
Proof.
  destruct c as [m t n v d e tx rg refs].
  cbn [c_mdf4 c_type c_vals c_nof c_dtype c_decimals c_texts c_ranges c_refs reread]. f_equal.
  induction refs as [|r rest IH]; [reflexivity|]. cbn [map]. rewrite <- IH.
  destruct r as [|[]| |]; reflexivity.
Qed.

Lemma cut0_id : forall t, ~ In 0 t -> cut0 t = t.
Proof.
  induction t as [|b r IH]; intro H; [reflexivity|]. cbn [cut0].
  destruct (N.eqb_spec b 0) as [E|_]; [exfalso; apply H; left; auto|].
  f_equal. apply IH. intro C. apply H. right. exact C.
Qed.

Lemma pick_same : forall fp fl fe fm x a b i, map (shows fp fl fe fm x) a = map (shows fp fl fe fm x) b ->
  pick fp fl fe fm x a i = pick fp fl fe fm x b i.
Proof.
  intros fp fl fe fm x a b i E. unfold pick.
  assert (L : length a = length b).
  { rewrite <- (map_length (shows fp fl fe fm x) a), E. apply map_length. }
  destruct a, b; try discriminate; [reflexivity|]. rewrite E, L. reflexivity.
Qed.

(** Reading a saved conversion gives one that converts alike. *)
Lemma saved_str : forall fp fl fe fm dt x c, saveable c -> typed dt c ->
  convert_str fp fl fe fm (reread dt (written c)) x = convert_str fp fl fe fm (written c) x.
Proof.
  intros fp fl fe fm dt x c. induction c as [c IH] using conv_nest. intros S T.
  inversion S as [? M L R]; subst. inversion T as [? D TR]; subst.
  rewrite reread_eq, written_eq. cbn [c_mdf4 c_type c_vals c_nof c_dtype c_decimals c_refs].
  rewrite !convert_str_eq. cbn [c_mdf4 c_type c_vals c_nof c_dtype c_decimals c_refs c_texts c_ranges].
  rewrite M.
  assert (E : map (shows fp fl fe fm x) (map (load_ref (c_dtype c)) (map save_ref (c_refs c))) =
              map (shows fp fl fe fm x) (map save_ref (c_refs c))).
  { rewrite !map_map. apply map_ext_in. intros r Hr. rewrite Forall_forall in R.
    specialize (R r Hr). destruct R as [|b t (S0 & S1 & S2)|c' Sc].
    - reflexivity.
    - cbn [save_ref]. destruct (N.eqb_spec (hd 0 t) 60) as [C|_]; [contradiction|].
      cbn [load_ref shows]. rewrite cut0_id, !S1 by auto. reflexivity.
    - cbn [save_ref load_ref shows]. apply IH; auto. }
  rewrite (pick_same _ _ _ _ _ _ _ _ E), (pick_same _ _ _ _ _ _ _ _ E).
  destruct (c_type c =? tText); [reflexivity|]. destruct (c_type c =? tRangeText); [reflexivity|].
  erewrite (num_same fp fl fe
    (mkConv true (c_type c) (w16 (N.of_nat (length (c_vals c)))) (c_vals c) (c_dtype c)
       (c_decimals c) [] [] (map (load_ref (c_dtype c)) (map save_ref (c_refs c))))
    (mkConv true (c_type c) (w16 (N.of_nat (length (c_vals c)))) (c_vals c) (c_dtype c)
       (c_decimals c) (c_texts c) (c_ranges c) (map save_ref (c_refs c)))) by reflexivity.
  reflexivity.
Qed.
