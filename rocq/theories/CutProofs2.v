(** Reading the files of interrupted calls. *)
From Verif Require Import Base BlockModel BlockSpec BlockProofs BlockProofs2 BlockProofs3 BlockProofs4
  MetaModel MetaSpec MetaProofs MetaProofs3 DataModel IdentModel IdentSpec IdentProofs QueueModel
  MeasModel MeasSpec MeasProofs MeasProofs2 MeasProofs3 MeasProofs4 MeasProofs5 CutModel CutSpec CutProofs.
Local Open Scope N_scope.

(* ------------------------------------------------------------------ *)
(** ** FinalizeMeasurement *)

Lemma mix_same : forall j g, mix_cg j g g = g.
Proof.
  intros j [x1 x2 x3 x4 x5 x6 x7 x8 x9 x10]. unfold mix_cg. cbn [g_record g_samples g_flags g_separator g_data g_inval g_name g_si g_md g_cns].
  f_equal; match goal with |- (if ?x then _ else _) = _ => destruct x; reflexivity end.
Qed.

Lemma noop_cgs : forall gs j, exists us2, patches write_cg no_place gs gs us2 /\
  forall pls, zip_writes us2 pls = firstn j (zip_writes (map cg_up gs) pls).
Proof.
  induction gs as [|g gs IH]; intros j.
  - exists []. split; [constructor|]. intros pls. unfold zip_writes. cbn [combine map concat]. symmetry. apply firstn_nil.
  - destruct (IH (j - (if is_vlsd g then 3 else 1))%nat) as (us2 & A & B).
    exists ((fun '(p, _) => firstn j (cg_writes p g)) :: us2). split.
    + constructor; [|exact A]. pose proof (patch_cg_cut j g g (same_refl g)) as P. rewrite mix_same in P. exact P.
    + intros [|[p u] pls]; [unfold zip_writes; cbn [combine map concat]; symmetry; apply firstn_nil|].
      unfold zip_writes in *. cbn [combine map concat]. change (cg_up g (p, u)) with (cg_writes p g).
      rewrite firstn_app, cg_writes_length, B. reflexivity.
Qed.

Lemma noop_dg : forall d j, patch write_dg dg_places d d (fun z => firstn j (dg_writes (snd z) d)).
Proof.
  intros d j. destruct (noop_cgs (d_cgs d) j) as (us2 & A & B).
  pose proof (patch_dg_cgs d (d_cgs d) us2 A) as P. rewrite dg_same in P. revert P. apply patch_ext.
  intros [p cgs]. cbn [snd]. rewrite dg_writes_zip. apply B.
Qed.

Definition dg_up (d : dg) : nat * list (nat * unit) -> writes_l := fun '(_, cgs) => dg_writes cgs d.

Lemma noop_dgs : forall ds pls j, exists us2, patches write_dg dg_places ds ds us2 /\
  zip_writes us2 pls = firstn j (zip_writes (map dg_up ds) pls).
Proof.
  induction ds as [|d ds IH]; intros pls j.
  - exists []. split; [constructor|]. unfold zip_writes. cbn [combine map concat]. symmetry. apply firstn_nil.
  - destruct pls as [|[p cgs] pls].
    + exists (repeat (fun _ => []) (length (d :: ds))). split; [apply patches_same|]. unfold zip_writes.
      rewrite !combine_nil. cbn [map concat]. symmetry. apply firstn_nil.
    + destruct (IH pls (j - length (dg_writes cgs d))%nat) as (us2 & A & B).
      exists ((fun z => firstn j (dg_writes (snd z) d)) :: us2). split; [constructor; [apply noop_dg|exact A]|].
      unfold zip_writes in *. cbn [combine map concat]. rewrite firstn_app, B. reflexivity.
Qed.

Lemma final_cut : forall i h src cur pay cn tm m hk W T b, inv i h src cur pay cn tm m hk W T b ->
  forall j, (0 < j)%nat -> puts (m_file m) (firstn j (hd_writes (m_head m) (m_places m) (m_hd m))) = m_file (finalize m).
Proof.
  intros i h src cur pay cn tm m hk W T b [Iw Ie If Ip Ipl It Im Ih Il Id In0 Idt Ic].
  set (h' := set_time (fst tm) hk). fold h' in Im.
  assert (SP : same_parts hk h') by (repeat split).
  assert (NE : (0 < length (write_id false i []))%nat) by (rewrite write_id_new, id_bytes_length; lia).
  unfold write_file in Iw. destruct (hd_patch_fields _ _ _ _ _ NE SP Iw) as (A & B & C & _).
  set (w0 := [(b_pos b + 72, fields_bytes (hd_fields h'))]%nat) in *.
  assert (L0 : length (puts W w0) = length W) by (apply puts_length; exact B).
  assert (EW : hd_writes (m_head m) (m_places m) (m_hd m) =
     (b_pos b + 72, fields_bytes (hd_fields h'))%nat :: zip_writes (map dg_up (h_dgs h')) (m_places m)).
  { unfold hd_writes. rewrite Ip, Im. f_equal. unfold zip_writes.
    generalize (m_places m). generalize (h_dgs h'). clear. intros ds.
    induction ds as [|d ds IH]; intros [|[p cgs] pls]; cbn [combine map concat]; auto. rewrite IH. reflexivity. }
  assert (NO : forall j, (0 < j)%nat -> puts (m_file m) (firstn j (hd_writes (m_head m) (m_places m) (m_hd m))) = puts W w0 ++ T).
  { intros [|j] L; [lia|]. rewrite EW. cbn [firstn]. rewrite puts_cons.
    destruct (noop_dgs (h_dgs h') (m_places m) j) as (us2 & P & Z).
    destruct (file_patch i h' (puts W w0) b _ _ A P) as (A2 & B2 & _).
    assert (SE : set_dgs h' (h_dgs h') = h') by reflexivity. rewrite SE in A2. clear SE.
    rewrite C, <- Ipl, Z in A2, B2. unfold write_file in A2. rewrite A in A2. apply ok_pair in A2. destruct A2 as [A2 _].
    change (put (m_file m) (b_pos b + 72) (fields_bytes (hd_fields h')))%nat with (puts (m_file m) w0).
    rewrite If, puts_ext by exact B. rewrite puts_ext by exact B2. rewrite <- A2. reflexivity. }
  intros j L. rewrite (NO j L). unfold finalize. cbn [m_file].
  rewrite <- (firstn_all (hd_writes (m_head m) (m_places m) (m_hd m))). symmetry. apply NO. rewrite EW. cbn [length]. lia.
Qed.

(* ------------------------------------------------------------------ *)
(** ** Data groups *)

Lemma between_l : forall c c' g, between c c' g (counted c g).
Proof.
  intros c c' g. exists (g_samples (counted c g)), (g_data (counted c g)), (g_inval (counted c g)).
  split; [destruct c; [reflexivity|destruct g; reflexivity]|auto].
Qed.
Lemma between_r : forall c c' g, between c c' g (counted c' g).
Proof.
  intros c c' g. exists (g_samples (counted c' g)), (g_data (counted c' g)), (g_inval (counted c' g)).
  split; [destruct c'; [reflexivity|destruct g; reflexivity]|auto].
Qed.

Lemma no_data : forall inflate f d, d_link d = 0 -> group_data inflate f d = Some (Ok []).
Proof. intros inflate f d E. unfold group_data. rewrite E. reflexivity. Qed.

Lemma set_cgs_ok : forall h hk1 k gs2 d0 c c' l, hd_ok h -> hd_ok hk1 -> nth_error (h_dgs h) k = Some d0 ->
  nth_error (h_dgs hk1) k = Some (dg_is c l d0) -> Forall2 (between c c') (d_cgs d0) gs2 ->
  hd_ok (set_dgs hk1 (upd_nth k (set_cgs gs2) (h_dgs hk1))).
Proof.
  intros h hk1 k gs2 d0 c c' l OK OK1 E0 E1 B.
  destruct OK as (_ & _ & _ & _ & _ & _ & O). rewrite Forall_forall in O. destruct (O d0 (nth_error_In _ _ E0)) as (_ & _ & _ & D4).
  destruct OK1 as (P1 & P2 & P3 & P4 & P5 & P6 & P7). unfold hd_ok, set_dgs.
  cbn [h_time h_class h_flags h_angle h_distance h_md h_fhs h_ats h_chs h_evs h_dgs].
  repeat (split; [assumption|]). apply Forall_forall. intros d HD. apply In_nth_error in HD as [q HD].
  rewrite upd_nth_error in HD. rewrite Forall_forall in P7. destruct (Nat.eqb_spec q k) as [EQ|NQ]; [subst q|].
  - rewrite E1 in HD. cbn [option_map] in HD. apply some_eq in HD. subst d.
    destruct (P7 _ (nth_error_In _ _ E1)) as (Q1 & Q2 & Q3 & _). unfold dg_ok, set_cgs. cbn [d_idsize d_md d_link d_cgs dg_is] in *.
    repeat (split; [assumption|]). clear - B D4. induction B as [|g g2 gs gs2 B1 B IH]; [constructor|].
    inversion D4; subst. constructor; [eapply between_ok; eauto|auto].
  - apply P7. apply (nth_error_In _ q). exact HD.
Qed.
