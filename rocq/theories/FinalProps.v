(** Theorems about finalization, C26. The proofs are in FinalProofs and FinalProofs2. *)
From Verif Require Import Base StreamModel StreamSpec StreamProofs StreamProofs2 IdProofs BlockModel
  FinalModel FinalSpec FinalProofs FinalProofs2.
From Coq Require Import Lia.
Local Open Scope N_scope.

(** A crash after any number of complete records: with the flags for sample counts (bit 0) and for
    the last DT block (bit 2), the last data group gets for each of its groups the number of its
    records, and its DT block holds exactly the stream. Nothing else changes: the other data groups,
    the sizes of groups of fixed length, the ids. True is returned unless a flag asks for something
    else (DL, RD or SR blocks). *)
Theorem C26_counts : forall m before d bs len pre recs fuel,
  open_file m before d bs (length pre) len -> N.testbit (m_flags m) 0 = true -> N.testbit (m_flags m) 2 = true ->
  dg_ok d -> Forall (rec_ok d) recs -> (recs <> [] \/ len <= 24) -> fits d recs ->
  (length (stream d recs) < fuel)%nat ->
  let flags := N.testbit (m_flags m) in
  exists d' len', finalize_file (pre ++ stream d recs) fuel m =
    Some (Ok (negb (flags 4) && negb (flags 3) && negb (flags 1),
              mkM false (m_flags m) (before ++ [mkF d' (bs ++ [FDt (length pre) len'])]))) /\
    dt_bytes (pre ++ stream d recs) (length pre) len' = stream d recs /\
    d_idsize d' = d_idsize d /\
    Forall2 (fun g g' => counted true (flags 5 || flags 6) (occ (g_id g) recs)
                           (payload_bytes (g_id g) recs + 4 * occ (g_id g) recs) g g') (d_groups d) (d_groups d').
Proof. exact finalize_complete. Qed.
Print Assumptions C26_counts.

(** And then every record can be read. *)
Theorem C26_records_back : forall m before d bs len pre recs fuel,
  open_file m before d bs (length pre) len -> N.testbit (m_flags m) 0 = true -> N.testbit (m_flags m) 2 = true ->
  dg_ok d -> Forall (rec_ok d) recs -> recs <> [] -> fits d recs -> (length (stream d recs) < fuel)%nat ->
  exists ok m' d' len' evs, finalize_file (pre ++ stream d recs) fuel m = Some (Ok (ok, m')) /\
    m_groups m' = before ++ [mkF d' (bs ++ [FDt (length pre) len'])] /\
    read_data d' (fun _ => true) (fun _ => true) fuel [dt_bytes (pre ++ stream d recs) (length pre) len'] = Some (Ok evs) /\
    map ev_rec evs = recs.
Proof.
  intros m before d bs len pre recs fuel O B0 B2 H F NE FT L.
  destruct (finalize_complete m before d bs len pre recs fuel O B0 B2 H F (or_introl NE) FT L) as (d' & len' & E & DT & SZ & C).
  destruct (read_after d d' _ recs fuel H F SZ C NE L) as (evs & E1 & E2).
  eexists _, _, d', len', evs. rewrite DT. split; [exact E|]. split; [reflexivity|]. auto.
Qed.
Print Assumptions C26_records_back.

(** A crash inside a record. Cut in the record id or in the length of a variable length record, the
    finalization ends with an exception; cut later, the record is counted as a complete one. What is
    missing: the count of complete records that the property asks for (see the refutations). *)
Theorem C26_cut_partial : forall m before d bs len pre recs r tail rest fuel,
  open_file m before d bs (length pre) len -> N.testbit (m_flags m) 0 = true -> N.testbit (m_flags m) 2 = true ->
  dg_ok d -> Forall (rec_ok d) recs -> rec_ok d r -> enc_rec d r = tail ++ rest -> tail <> [] -> rest <> [] ->
  fits d (recs ++ [r]) -> (length (stream d recs ++ tail) < fuel)%nat ->
  let flags := N.testbit (m_flags m) in
  if (length tail <? header_bytes d (r_id r))%nat
  then finalize_file (pre ++ stream d recs ++ tail) fuel m = Some Fail
  else exists d' len', finalize_file (pre ++ stream d recs ++ tail) fuel m =
    Some (Ok (negb (flags 4) && negb (flags 3) && negb (flags 1),
              mkM false (m_flags m) (before ++ [mkF d' (bs ++ [FDt (length pre) len'])]))) /\
    dt_bytes (pre ++ stream d recs ++ tail) (length pre) len' = stream d recs ++ tail /\
    d_idsize d' = d_idsize d /\
    Forall2 (fun g g' => counted true (flags 5 || flags 6) (occ (g_id g) (recs ++ [r]))
       (payload_bytes (g_id g) (recs ++ [r]) + 4 * occ (g_id g) (recs ++ [r])) g g') (d_groups d) (d_groups d').
Proof. exact finalize_cut. Qed.
Print Assumptions C26_cut_partial.

(** In the second case the complete records can be read, and only they. *)
Theorem C26_cut_records_back : forall m before d bs len pre recs r tail rest fuel,
  open_file m before d bs (length pre) len -> N.testbit (m_flags m) 0 = true -> N.testbit (m_flags m) 2 = true ->
  dg_ok d -> Forall (rec_ok d) recs -> rec_ok d r -> enc_rec d r = tail ++ rest -> tail <> [] -> rest <> [] ->
  fits d (recs ++ [r]) -> (length (stream d recs ++ tail) < fuel)%nat ->
  (header_bytes d (r_id r) <= length tail)%nat ->
  exists ok m' d' len' evs, finalize_file (pre ++ stream d recs ++ tail) fuel m = Some (Ok (ok, m')) /\
    m_groups m' = before ++ [mkF d' (bs ++ [FDt (length pre) len'])] /\
    read_data d' (fun _ => true) (fun _ => true) fuel [dt_bytes (pre ++ stream d recs ++ tail) (length pre) len'] = Some (Ok evs) /\
    map ev_rec evs = recs.
Proof.
  intros m before d bs len pre recs r tail rest fuel O B0 B2 H F R E T1 T2 FT L HB.
  pose proof (finalize_cut m before d bs len pre recs r tail rest fuel O B0 B2 H F R E T1 T2 FT L) as X. cbv zeta in X.
  destruct (Nat.ltb_spec (length tail) (header_bytes d (r_id r))); [lia|].
  destruct X as (d' & len' & X & DT & SZ & C).
  destruct (read_after_cut d d' _ recs r tail rest fuel H F R E T1 T2 SZ C L) as (evs & E1 & E2).
  eexists _, _, d', len', evs. rewrite DT. split; [exact X|]. split; [reflexivity|]. auto.
Qed.
Print Assumptions C26_cut_records_back.

(** A finalized file, or one without flags, is left as it is. *)
Theorem C26_already_final : forall f fuel m, m_final m = true \/ m_flags m = 0 ->
  finalize_file f fuel m = Some (Ok (false, m)).
Proof.
  intros f fuel m [H|H]; unfold finalize_file; rewrite H; [reflexivity|].
  rewrite N.eqb_refl, orb_true_r. reflexivity.
Qed.
Print Assumptions C26_already_final.

(* ------------------------------------------------------------------ *)
(** ** Witness and refutations *)

Definition fin_dg : dgroup := build4 [mkGroup 0 false 2 0 0; mkGroup 0 true 0 0 0].
Definition fin_recs : list srec := [Rec 1 [7; 8]; Rec 2 [9; 9; 9]; Rec 1 [5; 6]].
Definition fin_file (bs : list fblk) : mfile := mkM false 37 [mkF (mkDg 0 []) []; mkF fin_dg (bs ++ [FDt 3 24])].

Lemma fin_dg_ok : dg_ok fin_dg.
Proof.
  constructor.
  - discriminate.
  - repeat constructor; cbn; intuition discriminate.
  - cbn; auto.
  - intros g [<-|[<-|[]]] _; vm_compute; reflexivity.
  - discriminate.
  - discriminate.
Qed.

Lemma fin_rec1 : forall a b, rec_ok fin_dg (Rec 1 [a; b]).
Proof. intros. exists (mkGroup 1 false 2 0 0). split; [left; reflexivity|]. split; reflexivity. Qed.

Lemma fin_rec2 : rec_ok fin_dg (Rec 2 [9; 9; 9]).
Proof. exists (mkGroup 2 true 0 0 0). split; [right; left; reflexivity|]. split; [reflexivity|vm_compute; reflexivity]. Qed.

Lemma fin_recs_ok : Forall (rec_ok fin_dg) fin_recs.
Proof. constructor; [apply fin_rec1|]. constructor; [apply fin_rec2|]. constructor; [apply fin_rec1|constructor]. Qed.

Example C26_witness :
  open_file (fin_file [FOther]) [mkF (mkDg 0 []) []] fin_dg [FOther] (length [1; 2; 3]) 24 /\
  dg_ok fin_dg /\ Forall (rec_ok fin_dg) fin_recs /\ fits fin_dg fin_recs /\ fits fin_dg (fin_recs ++ [Rec 2 [9; 9; 9]]) /\
  stream fin_dg fin_recs = [1; 7; 8; 2; 3; 0; 0; 0; 9; 9; 9; 1; 5; 6] /\
  finalize_file ([1; 2; 3] ++ stream fin_dg fin_recs) 50 (fin_file [FOther]) =
    Some (Ok (true, mkM false 37 [mkF (mkDg 0 []) []; mkF (mkDg 1 [mkGroup 1 false 2 0 2; mkGroup 2 true 7 0 1]) [FOther; FDt 3 38]])).
Proof.
  split; [split; reflexivity|]. split; [exact fin_dg_ok|]. split; [exact fin_recs_ok|].
  split; [intros g [<-|[<-|[]]]; vm_compute; split; reflexivity|].
  split; [intros g [<-|[<-|[]]]; vm_compute; split; reflexivity|]. split; vm_compute; reflexivity.
Qed.

(** The count of complete records is not what is stored when the last one is cut: two bytes of the
    last record are there, and it counts. *)
Theorem C26_cut_record_refuted : ~ (forall m d pre recs r tail rest,
  open_file m [] d [] (length pre) 24 -> N.testbit (m_flags m) 0 = true -> N.testbit (m_flags m) 2 = true ->
  dg_ok d -> Forall (rec_ok d) recs -> rec_ok d r -> enc_rec d r = tail ++ rest -> tail <> [] -> rest <> [] ->
  forall ok m' d' bs', finalize_file (pre ++ stream d recs ++ tail) 100 m = Some (Ok (ok, m')) ->
    m_groups m' = [mkF d' bs'] -> Forall2 (fun g g' => g_nof g' = g_nof g + occ (g_id g) recs) (d_groups d) (d_groups d')).
Proof.
  intros H.
  specialize (H (mkM false 37 [mkF fin_dg [FDt 3 24]]) fin_dg [1; 2; 3] fin_recs (Rec 1 [3; 4]) [1; 3] [4]
    ltac:(split; reflexivity) eq_refl eq_refl fin_dg_ok fin_recs_ok (fin_rec1 3 4) eq_refl ltac:(discriminate) ltac:(discriminate)
    _ _ _ _ eq_refl eq_refl).
  inversion H as [|g g' l l' X]. vm_compute in X. discriminate.
Qed.
Print Assumptions C26_cut_record_refuted.

(** A cut inside the length of a variable length record loses everything: no count is stored,
    opening the file reports an error. *)
Theorem C26_cut_header_refuted : ~ (forall m d pre recs r tail rest,
  open_file m [] d [] (length pre) 24 -> N.testbit (m_flags m) 0 = true -> N.testbit (m_flags m) 2 = true ->
  dg_ok d -> Forall (rec_ok d) recs -> rec_ok d r -> enc_rec d r = tail ++ rest -> tail <> [] -> rest <> [] ->
  exists ok m', finalize_file (pre ++ stream d recs ++ tail) 100 m = Some (Ok (ok, m'))).
Proof.
  intros H.
  destruct (H (mkM false 37 [mkF fin_dg [FDt 3 24]]) fin_dg [1; 2; 3] fin_recs (Rec 2 [9; 9; 9]) [2; 3] [0; 0; 0; 9; 9; 9]
    ltac:(split; reflexivity) eq_refl eq_refl fin_dg_ok fin_recs_ok fin_rec2 eq_refl ltac:(discriminate) ltac:(discriminate))
    as (ok & m' & E).
  vm_compute in E. discriminate.
Qed.
Print Assumptions C26_cut_header_refuted.

(** The size of a VLSD group is not the number of payload bytes the writer stores there: the length
    fields are counted too. *)
Theorem C26_vlsd_size_refuted : ~ (forall m d pre recs,
  open_file m [] d [] (length pre) 24 -> m_flags m = 37 -> dg_ok d -> Forall (rec_ok d) recs ->
  forall ok m' d' bs', finalize_file (pre ++ stream d recs) 100 m = Some (Ok (ok, m')) -> m_groups m' = [mkF d' bs'] ->
  Forall2 (fun g g' => g_vlsd g = true -> vlsd_total g' = vlsd_total g + payload_bytes (g_id g) recs) (d_groups d) (d_groups d')).
Proof.
  intros H.
  specialize (H (mkM false 37 [mkF fin_dg [FDt 3 24]]) fin_dg [1; 2; 3] fin_recs
    ltac:(split; reflexivity) eq_refl fin_dg_ok fin_recs_ok _ _ _ _ eq_refl eq_refl).
  inversion H as [|g g' l l' X Y]. inversion Y as [|g1 g1' l1 l1' Z]. vm_compute in Z.
  specialize (Z eq_refl). discriminate.
Qed.
Print Assumptions C26_vlsd_size_refuted.

(** Records of no bytes without record id: the finalization never ends. *)
Theorem C26_zero_size_refuted : exists m f, open_file m [] (mkDg 0 [mkGroup 0 false 0 0 0]) [] 0 24 /\
  forall fuel, finalize_file f fuel m = None.
Proof.
  exists (mkM false 5 [mkF (mkDg 0 [mkGroup 0 false 0 0 0]) [FDt 0 24]]), [7]. split; [split; reflexivity|].
  intros fuel. change (finalize_file [7] fuel (mkM false 5 [mkF (mkDg 0 [mkGroup 0 false 0 0 0]) [FDt 0 24]]))
    with (match (match count_loop (mkDg 0 [mkGroup 0 false 0 0 0]) [7] 1 fuel 0 0 (fun _ => (0, 0)) with
          | Some (Ok cnt) => Some (Ok (mkF (mkDg 0 (update_groups true false cnt [] [mkGroup 0 false 0 0 0])) [FDt 0 25]))
          | Some Fail => Some Fail | Some UB => Some UB | None => None end) with
        | Some (Ok g) => Some (Ok (true, mkM false 5 ([] ++ [g])))
        | Some Fail => Some Fail | Some UB => Some UB | None => None end).
  rewrite zero_loops. reflexivity.
Qed.
Print Assumptions C26_zero_size_refuted.
