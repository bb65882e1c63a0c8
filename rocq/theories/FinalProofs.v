(** Proofs about finalization. *)
From Verif Require Import Base StreamModel StreamSpec StreamProofs StreamProofs2 BlockModel BlockSpec BlockProofs
  FinalModel FinalSpec.
From Coq Require Import Lia.
Local Open Scope N_scope.

Lemma read_at : forall a k v b, v < 256 ^ N.of_nat k ->
  read_num false k (a ++ le_bytes k v ++ b) (length a) = Ok (v, (length a + k)%nat).
Proof. intros. apply read_num_le; auto. apply holds_end. Qed.

Lemma read_short : forall k f p, (length f - p < k)%nat -> read_num false k f p = Fail.
Proof.
  intros k f p H. unfold read_num, slice.
  destruct (Nat.ltb_spec (length (firstn k (skipn p f))) k) as [C|C]; auto.
  rewrite firstn_length, skipn_length in C. lia.
Qed.

Lemma id_read : forall d g a b, dg_ok d -> In g (d_groups d) -> exists i,
  read_record_id d (a ++ le_bytes (N.to_nat (d_idsize d)) (g_id g) ++ b) (length a)
  = Ok (i, (length a + N.to_nat (d_idsize d))%nat) /\ find_group d i = Some g.
Proof.
  intros d g a b H IN. unfold read_record_id.
  destruct (N.eqb_spec (d_idsize d) 0) as [Z|Z].
  - rewrite Z. cbn [N.eqb orb N.to_nat]. exists 0. split; [f_equal; f_equal; lia|].
    unfold find_group. rewrite cg_map_nodup by apply H. pose proof (dg_single _ H Z) as L.
    destruct (d_groups d) as [|x [|y r]]; try discriminate. destruct IN as [->|[]]. reflexivity.
  - assert (K : ((d_idsize d =? 1) || (d_idsize d =? 2) || (d_idsize d =? 4) || (d_idsize d =? 8)) = true).
    { pose proof (dg_size _ H) as I. cbn [In] in I. lia. }
    rewrite K. exists (g_id g). split; [|apply find_group_in; auto]. apply read_at.
    rewrite N2Nat.id. apply (dg_fit _ H); auto.
Qed.

(** Bytes counted for a record. *)
Definition rec_bytes (d : dgroup) (r : srec) : N :=
  N.of_nat (length (r_data r)) + if vlsd_id d (r_id r) then 4 else 0.

Definition add_rec (d : dgroup) (cnt : counters) (r : srec) : counters :=
  fun i => if i =? r_id r then (w64 (fst (cnt i) + 1), w64 (snd (cnt i) + rec_bytes d r)) else cnt i.

Lemma enc_rec_len : forall d r, N.of_nat (length (enc_rec d r)) = d_idsize d + rec_bytes d r.
Proof.
  intros. unfold enc_rec, rec_bytes. rewrite !app_length, le_bytes_length.
  destruct (vlsd_id d (r_id r)); [rewrite le_bytes_length|cbn [length]]; lia.
Qed.

Lemma vlsd_of : forall d r g, dg_ok d -> In g (d_groups d) -> g_id g = r_id r -> vlsd_id d (r_id r) = g_vlsd g.
Proof. intros d r g H IN <-. apply vlsd_id_in; auto. Qed.

(** Two counters that agree everywhere lead to the same result everywhere. *)
Definition same_cnt (a b : counters) : Prop := forall i, a i = b i.
Definition same_res (a b : option (res counters)) : Prop :=
  match a, b with
  | Some (Ok x), Some (Ok y) => same_cnt x y
  | Some Fail, Some Fail => True
  | Some UB, Some UB => True
  | None, None => True
  | _, _ => False
  end.

Lemma loop_ext : forall d f size fuel p c x y, same_cnt x y ->
  same_res (count_loop d f size fuel p c x) (count_loop d f size fuel p c y).
Proof.
  intros d f size fuel. induction fuel as [|k IH]; intros p c x y E; cbn [count_loop].
  - destruct (c <? size); cbn; auto.
  - destruct (c <? size); [|cbn; auto]. destruct (read_record_id d f p) as [[i p1]| |]; cbn; auto.
    destruct (find_group d i); [|cbn; auto]. destruct (count_bytes g f p1); cbn; auto.
    rewrite (E (g_id g)). destruct (y (g_id g)) as [s b]. apply IH. intros j. destruct (j =? g_id g); auto.
Qed.

(** One complete record. *)
Lemma count_one : forall d r a b size k c cnt, dg_ok d -> rec_ok d r -> c < size ->
  same_res
    (count_loop d (a ++ enc_rec d r ++ b) size (S k) (length a) c cnt)
    (count_loop d (a ++ enc_rec d r ++ b) size k (length (a ++ enc_rec d r)) (c + N.of_nat (length (enc_rec d r)))
       (add_rec d cnt r)).
Proof.
  intros d r a b size k c cnt H (g & IN & E & SZ) L.
  pose proof (vlsd_of d r g H IN E) as V.
  cbn [count_loop]. destruct (N.ltb_spec c size); [|lia].
  set (f := a ++ enc_rec d r ++ b).
  assert (F1 : f = a ++ le_bytes (N.to_nat (d_idsize d)) (g_id g) ++
                   ((if g_vlsd g then le_bytes 4 (N.of_nat (length (r_data r))) else []) ++ r_data r ++ b)).
  { unfold f, enc_rec. rewrite E, V, <- !app_assoc. reflexivity. }
  destruct (id_read d g a ((if g_vlsd g then le_bytes 4 (N.of_nat (length (r_data r))) else []) ++ r_data r ++ b) H IN) as (i & RI & FG).
  rewrite <- F1 in RI. rewrite RI, FG.
  assert (CB : count_bytes g f (length a + N.to_nat (d_idsize d)) = Ok (rec_bytes d r)).
  { unfold count_bytes, rec_bytes. rewrite V. destruct (g_vlsd g) eqn:GV.
    - rewrite F1, app_assoc. rewrite <- (le_bytes_length (N.to_nat (d_idsize d)) (g_id g)) at 2. rewrite <- app_length.
      rewrite read_at by (change (256 ^ N.of_nat 4) with (2 ^ 32); auto). cbn [bind]. f_equal. lia.
    - f_equal. lia. }
  rewrite CB.
  pose proof (enc_rec_len d r) as EL.
  replace (length a + N.to_nat (d_idsize d) + N.to_nat (rec_bytes d r))%nat with (length (a ++ enc_rec d r))
    by (rewrite app_length; lia).
  replace (c + N.of_nat (length a + N.to_nat (d_idsize d) - length a) + rec_bytes d r)
    with (c + N.of_nat (length (enc_rec d r))) by lia.
  destruct (cnt (g_id g)) as [s n] eqn:C. apply loop_ext. intros j. unfold add_rec. rewrite <- E.
  destruct (N.eqb_spec j (g_id g)) as [->|]; [rewrite C; reflexivity|reflexivity].
Qed.

Lemma same_res_trans : forall a b c, same_res a b -> same_res b c -> same_res a c.
Proof.
  intros a b c. destruct a as [[x| |]|], b as [[y| |]|], c as [[z| |]|]; cbn; try tauto.
  intros A B i. rewrite A. apply B.
Qed.

Lemma count_all : forall recs d a b size fuel c cnt, dg_ok d -> Forall (rec_ok d) recs ->
  c + N.of_nat (length (stream d recs)) <= size -> (length recs <= fuel)%nat ->
  same_res
    (count_loop d (a ++ stream d recs ++ b) size fuel (length a) c cnt)
    (count_loop d (a ++ stream d recs ++ b) size (fuel - length recs) (length (a ++ stream d recs))
       (c + N.of_nat (length (stream d recs))) (fold_left (add_rec d) recs cnt)).
Proof.
  induction recs as [|r t IH]; intros d a b size fuel c cnt H F S L.
  - cbn [stream map concat fold_left length app]. rewrite app_nil_r, Nat.sub_0_r, N.add_0_r. apply loop_ext. intros i. reflexivity.
  - apply Forall_cons_iff in F as [F1 F2]. cbn [length] in L. destruct fuel as [|k]; [lia|].
    unfold stream in *. cbn [map concat fold_left] in *. rewrite app_length in S.
    pose proof (enc_rec_pos d r H F1) as P. rewrite <- !app_assoc.
    eapply same_res_trans; [apply count_one; auto; lia|].
    specialize (IH d (a ++ enc_rec d r) b size k (c + N.of_nat (length (enc_rec d r))) (add_rec d cnt r) H F2 ltac:(lia) ltac:(lia)).
    rewrite <- !app_assoc in IH. cbn [length Nat.sub].
    replace (c + N.of_nat (length (enc_rec d r ++ concat (map (enc_rec d) t))))
      with (c + N.of_nat (length (enc_rec d r)) + N.of_nat (length (concat (map (enc_rec d) t)))) by (rewrite app_length; lia).
    exact IH.
Qed.

Definition added (d : dgroup) (i : N) (recs : list srec) : N :=
  payload_bytes i recs + if vlsd_id d i then 4 * occ i recs else 0.

Lemma w64_add : forall a b, w64 (w64 a + b) = w64 (a + b).
Proof. intros. unfold w64. apply N.add_mod_idemp_l. discriminate. Qed.

Lemma payload_cons : forall i r t, payload_bytes i (r :: t) =
  (if r_id r =? i then N.of_nat (length (r_data r)) else 0) + payload_bytes i t.
Proof. intros. unfold payload_bytes. cbn [filter]. destruct (r_id r =? i); reflexivity. Qed.

Lemma fold_counts : forall d recs cnt i, fst (cnt i) < 2 ^ 64 -> snd (cnt i) < 2 ^ 64 ->
  fold_left (add_rec d) recs cnt i = (w64 (fst (cnt i) + occ i recs), w64 (snd (cnt i) + added d i recs)).
Proof.
  intros d recs. induction recs as [|r t IH]; intros cnt i A B.
  - cbn [fold_left]. unfold added. change (occ i []) with 0. change (payload_bytes i []) with 0.
    replace (0 + if vlsd_id d i then 4 * 0 else 0) with 0 by (destruct (vlsd_id d i); reflexivity).
    rewrite !N.add_0_r. unfold w64. rewrite !N.mod_small by auto. destruct (cnt i); reflexivity.
  - cbn [fold_left]. assert (W : forall x, w64 x < 2 ^ 64) by (intros; apply N.mod_lt; discriminate).
    rewrite IH; unfold add_rec.
    + rewrite occ_cons. unfold added. rewrite payload_cons, occ_cons.
      destruct (N.eqb_spec i (r_id r)) as [->|C].
      * rewrite N.eqb_refl. cbn [fst snd]. rewrite !w64_add. unfold rec_bytes. f_equal; f_equal; [lia|].
        destruct (vlsd_id d (r_id r)); lia.
      * destruct (N.eqb_spec (r_id r) i); [congruence|]. f_equal; f_equal; destruct (vlsd_id d i); lia.
    + destruct (i =? r_id r); auto. cbn [fst]. apply W.
    + destruct (i =? r_id r); auto. cbn [snd]. apply W.
Qed.

(** Nothing left. *)
Lemma count_end : forall d f size fuel p cnt, count_loop d f size fuel p size cnt = Some (Ok cnt).
Proof. intros. destruct fuel; cbn [count_loop]; rewrite N.ltb_irrefl; reflexivity. Qed.

Lemma stream_len_ge : forall d recs, dg_ok d -> Forall (rec_ok d) recs -> (length recs <= length (stream d recs))%nat.
Proof.
  intros d recs H F. induction F as [|r t R _ IH]; [cbn; lia|]. unfold stream in *. cbn [map concat length].
  rewrite app_length. pose proof (enc_rec_pos d r H R). lia.
Qed.

Lemma count_complete : forall d pre recs fuel, dg_ok d -> Forall (rec_ok d) recs -> (length (stream d recs) < fuel)%nat ->
  exists cnt, count_loop d (pre ++ stream d recs) (N.of_nat (length (stream d recs))) fuel (length pre) 0 (fun _ => (0, 0)) = Some (Ok cnt)
  /\ forall i, cnt i = (w64 (occ i recs), w64 (added d i recs)).
Proof.
  intros d pre recs fuel H F L. pose proof (stream_len_ge d recs H F) as G.
  pose proof (count_all recs d pre [] (N.of_nat (length (stream d recs))) fuel 0 (fun _ => (0, 0)) H F ltac:(lia) ltac:(lia)) as C.
  rewrite app_nil_r, N.add_0_l, count_end in C.
  destruct (count_loop d (pre ++ stream d recs) _ fuel (length pre) 0 _) as [[cnt| |]|]; cbn [same_res] in C; try contradiction.
  exists cnt. split; auto. intros i. rewrite C, fold_counts by (cbn; lia). reflexivity.
Qed.

(** A cut record at the end. *)
Lemma count_cut : forall d pre recs r tail rest fuel, dg_ok d -> Forall (rec_ok d) recs -> rec_ok d r ->
  enc_rec d r = tail ++ rest -> tail <> [] -> rest <> [] -> (length (stream d recs ++ tail) < fuel)%nat ->
  let out := count_loop d (pre ++ stream d recs ++ tail) (N.of_nat (length (stream d recs ++ tail))) fuel (length pre) 0 (fun _ => (0, 0)) in
  if (length tail <? header_bytes d (r_id r))%nat then out = Some Fail
  else exists cnt, out = Some (Ok cnt) /\ forall i, cnt i = (w64 (occ i (recs ++ [r])), w64 (added d i (recs ++ [r]))).
Proof.
  intros d pre recs r tail rest fuel H F R E T1 T2 L. cbv zeta. pose proof (stream_len_ge d recs H F) as G.
  rewrite app_length in L.
  assert (TL : (0 < length tail)%nat) by (destruct tail; [contradiction|cbn; lia]).
  assert (RL : (0 < length rest)%nat) by (destruct rest; [contradiction|cbn; lia]).
  pose proof (count_all recs d pre tail (N.of_nat (length (stream d recs ++ tail))) fuel 0 (fun _ => (0, 0)) H F
               ltac:(rewrite app_length; lia) ltac:(lia)) as C.
  rewrite N.add_0_l in C.
  set (cnt0 := fold_left (add_rec d) recs (fun _ => (0, 0))) in *.
  set (f := pre ++ stream d recs ++ tail) in *.
  assert (FE : f = (pre ++ stream d recs) ++ tail) by (unfold f; rewrite app_assoc; reflexivity).
  destruct (fuel - length recs)%nat as [|k] eqn:K; [lia|]. cbn [count_loop] in C.
  destruct (N.ltb_spec (N.of_nat (length (stream d recs))) (N.of_nat (length (stream d recs ++ tail)))) as [LT|LT];
    [|rewrite app_length in LT; lia].
  destruct R as (g & IN & EG & SZ). pose proof (vlsd_of d r g H IN EG) as V.
  unfold header_bytes. rewrite V. set (h := N.to_nat (d_idsize d)) in *.
  assert (ENC : tail ++ rest = le_bytes h (g_id g) ++ (if g_vlsd g then le_bytes 4 (N.of_nat (length (r_data r))) else []) ++ r_data r).
  { rewrite <- E. unfold enc_rec. rewrite EG, V. reflexivity. }
  assert (FL : length f = (length (pre ++ stream d recs) + length tail)%nat) by (rewrite FE, app_length; reflexivity).
  destruct (Nat.lt_ge_cases (length tail) h) as [C1|C1].
  - (* inside the id *)
    destruct (Nat.ltb_spec (length tail) (h + (if g_vlsd g then 4 else 0))); [|destruct (g_vlsd g); lia].
    assert (RF : read_record_id d f (length (pre ++ stream d recs)) = Fail).
    { unfold read_record_id. assert (Z : d_idsize d <> 0) by (unfold h in C1; lia).
      assert (KK : ((d_idsize d =? 1) || (d_idsize d =? 2) || (d_idsize d =? 4) || (d_idsize d =? 8)) = true).
      { pose proof (dg_size _ H) as I. cbn [In] in I. lia. }
      rewrite KK. apply read_short. rewrite FL. fold h. lia. }
    rewrite RF in C.
    destruct (count_loop d f _ fuel (length pre) 0 _) as [[cnt| |]|]; cbn [same_res] in C; try contradiction. reflexivity.
  - assert (TE : tail = le_bytes h (g_id g) ++ skipn h tail).
    { rewrite <- (firstn_skipn h tail) at 1. f_equal.
      assert (X : firstn h (tail ++ rest) = firstn h (le_bytes h (g_id g) ++ (if g_vlsd g then le_bytes 4 (N.of_nat (length (r_data r))) else []) ++ r_data r))
        by (rewrite ENC; reflexivity).
      rewrite firstn_app in X. replace (h - length tail)%nat with 0%nat in X by lia. cbn [firstn] in X. rewrite app_nil_r in X.
      rewrite X, firstn_app, le_bytes_length, Nat.sub_diag. cbn [firstn]. rewrite app_nil_r. apply firstn_all2. rewrite le_bytes_length. lia. }
    destruct (id_read d g (pre ++ stream d recs) (skipn h tail) H IN) as (i & RI & FG).
    fold h in RI. rewrite <- TE, <- FE in RI. rewrite RI, FG in C.
    destruct (Nat.ltb_spec (length tail) (h + (if g_vlsd g then 4 else 0))) as [C2|C2].
    + (* inside the length *)
      destruct (g_vlsd g) eqn:GV; [|lia].
      assert (CB : count_bytes g f (length (pre ++ stream d recs) + h) = Fail).
      { unfold count_bytes. rewrite GV, read_short by (rewrite FL; lia). reflexivity. }
      rewrite CB in C.
      destruct (count_loop d f _ fuel (length pre) 0 _) as [[cnt| |]|]; cbn [same_res] in C; try contradiction. reflexivity.
    + (* after the header *)
      assert (CB : count_bytes g f (length (pre ++ stream d recs) + h) = Ok (rec_bytes d r)).
      { unfold count_bytes, rec_bytes. rewrite V. destruct (g_vlsd g) eqn:GV; [|f_equal; lia].
        assert (TE2 : tail = (le_bytes h (g_id g) ++ le_bytes 4 (N.of_nat (length (r_data r)))) ++ skipn (h + 4) tail).
        { rewrite <- (firstn_skipn (h + 4) tail) at 1. f_equal.
          assert (X : firstn (h + 4) (tail ++ rest) = firstn (h + 4) ((le_bytes h (g_id g) ++ le_bytes 4 (N.of_nat (length (r_data r)))) ++ r_data r))
            by (rewrite ENC, <- app_assoc; reflexivity).
          rewrite firstn_app in X. replace (h + 4 - length tail)%nat with 0%nat in X by lia. cbn [firstn] in X. rewrite app_nil_r in X.
          rewrite X, firstn_app, app_length, !le_bytes_length, Nat.sub_diag. cbn [firstn]. rewrite app_nil_r.
          apply firstn_all2. rewrite app_length, !le_bytes_length. lia. }
        rewrite FE, TE2. rewrite <- (le_bytes_length h (g_id g)) at 3. rewrite <- !app_assoc.
        replace (pre ++ stream d recs ++ le_bytes h (g_id g) ++ le_bytes 4 (N.of_nat (length (r_data r))) ++ skipn (h + 4) tail)
          with (((pre ++ stream d recs) ++ le_bytes h (g_id g)) ++ le_bytes 4 (N.of_nat (length (r_data r))) ++ skipn (h + 4) tail)
          by (rewrite <- !app_assoc; reflexivity).
        replace (length (pre ++ stream d recs) + length (le_bytes h (g_id g)))%nat
          with (length ((pre ++ stream d recs) ++ le_bytes h (g_id g))) by (rewrite !app_length; lia).
        rewrite read_at by (change (256 ^ N.of_nat 4) with (2 ^ 32); auto). cbn [bind]. f_equal. lia. }
      rewrite CB in C.
      assert (DONE : forall c2 cc p, N.of_nat (length (stream d recs ++ tail)) <= c2 ->
        count_loop d f (N.of_nat (length (stream d recs ++ tail))) k p c2 cc = Some (Ok cc)).
      { intros c2 cc p X. destruct k; cbn [count_loop]; (destruct (N.ltb_spec c2 (N.of_nat (length (stream d recs ++ tail)))); [lia|reflexivity]). }
      destruct (cnt0 (g_id g)) as [s b] eqn:C0. rewrite DONE in C.
      2:{ pose proof (enc_rec_len d r) as EL. rewrite E in EL. rewrite app_length in EL. rewrite app_length. unfold h. lia. }
      destruct (count_loop d f _ fuel (length pre) 0 _) as [[cnt| |]|]; cbn [same_res] in C; try contradiction.
      exists cnt. split; auto. intros j. rewrite C.
      assert (X : forall q, fold_left (add_rec d) (recs ++ [r]) (fun _ => (0, 0)) q = add_rec d cnt0 r q)
        by (intros; rewrite fold_left_app; reflexivity).
      transitivity (add_rec d cnt0 r j).
      * unfold add_rec. rewrite <- EG. destruct (N.eqb_spec j (g_id g)) as [->|]; [rewrite C0|]; reflexivity.
      * rewrite <- X, fold_counts by (cbn; lia). reflexivity.
Qed.
