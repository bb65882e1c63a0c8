(** Reading variable length values by offset, from a VLSD channel group or from signal data. *)
From Verif Require Import Base StreamModel StreamSpec StreamProofs StreamProofs2.
Local Open Scope N_scope.

(* ------------------------------------------------------------------ *)
(** ** VLSD channel group *)

Lemma get_len_good : forall n s rem, N.of_nat n < 2 ^ 32 -> good s (le_bytes 4 (N.of_nat n) ++ rem) ->
  exists s', get_len s = Ok (n, s') /\ good s' rem /\ dc s' = dc s + 4.
Proof.
  intros n s rem Hn G. destruct (get_len4 _ _ _ Hn G) as (s' & E & L & G' & D).
  exists s'. unfold get_len. rewrite E. cbn [bind fst snd]. rewrite L, Nat2N.id. auto.
Qed.

Lemma step_off_eq : forall off n, N.of_nat n < 2 ^ 32 - 4 ->
  step_off off n = off + 4 + N.of_nat n.
Proof. intros. unfold step_off, w32. rewrite N.mod_small by lia. lia. Qed.

(** The callbacks for a record at value offset [off]. *)
Definition vev (rid : N) (flt : list N) (off : N) (r : srec) : list (N * list N) :=
  if r_id r =? rid then requested flt [(off, r_data r)] else [].

Definition voff (rid : N) (off : N) (r : srec) : N :=
  if r_id r =? rid then off + 4 + N.of_nat (length (r_data r)) else off.

Lemma vlsd_cg_one : forall d rid flt st r rest,
  dg_ok d -> rec_ok d r -> vlsd_id d rid = true ->
  (r_id r = rid -> N.of_nat (length (r_data r)) < 2 ^ 32 - 4) ->
  good (v_rc st) (enc_rec d r ++ rest) ->
  exists b st', vlsd_cg_step d rid flt st = Ok (b, st') /\ good (v_rc st') rest /\
    v_off st' = voff rid (v_off st) r /\
    v_log st' = v_log st ++ vev rid flt (v_off st) r /\
    dc (v_rc st') <= dc (v_rc st) + N.of_nat (length (enc_rec d r)) /\
    dc (v_rc st) < dc (v_rc st').
Proof.
  intros d rid flt st r rest H R V B G.
  pose proof (enc_rec_pos d r H R) as Hpos.
  destruct R as (g & Hin & E & R).
  assert (HL : length (enc_rec d r) = (N.to_nat (d_idsize d) + ((if g_vlsd g then 4 else 0) + length (r_data r)))%nat).
  { unfold enc_rec. rewrite <- E, (vlsd_id_in _ _ H Hin), !app_length, le_bytes_length.
    destruct (g_vlsd g); [rewrite le_bytes_length|]; reflexivity. }
  assert (GG := G). unfold enc_rec in GG. rewrite <- E, (vlsd_id_in _ _ H Hin) in GG.
  rewrite <- !app_assoc in GG.
  destruct (parse_id_good d g _ _ H Hin GG) as (s1 & E1 & G1 & D1).
  unfold vlsd_cg_step. rewrite E1. cbn [bind fst snd]. rewrite (find_cg_in _ _ H Hin).
  unfold vev, voff. rewrite E.
  assert (SK : forall s2, good s2 (r_data r ++ rest) ->
    good (skip_bytes (length (r_data r)) s2) rest /\
    dc (skip_bytes (length (r_data r)) s2) <= dc s2 + N.of_nat (length (r_data r)) /\
    dc s2 <= dc (skip_bytes (length (r_data r)) s2) /\
    ((0 < length (r_data r))%nat -> dc s2 < dc (skip_bytes (length (r_data r)) s2))).
  { intros s2 G2. destruct (skip_good (length (r_data r)) s2 _ G2) as (G3 & D3 & D4).
    { rewrite app_length. lia. }
    rewrite skipn_app, Nat.sub_diag, skipn_all in G3. cbn [app skipn] in G3.
    repeat split; try apply G3; auto.
    destruct (Nat.eq_dec (length (r_data r)) 0) as [Z|Z]; [|specialize (D4 ltac:(lia)); lia].
    rewrite Z. unfold skip_bytes. destruct G2 as (_ & F & _).
    replace (fi s2 + 0 <=? length (cur s2))%nat with true by lia. cbn [dc]. lia. }
  destruct (g_vlsd g) eqn:GV.
  - destruct (get_len_good _ _ _ R G1) as (s2 & E2 & G2 & D2).
    rewrite E2. cbn [bind fst snd].
    destruct (SK s2 G2) as (S1 & S2 & S3 & S4).
    destruct (N.eqb_spec (r_id r) rid) as [Q|Q]; cbn [negb].
    + specialize (B Q). unfold filtered, requested.
      rewrite step_off_eq by auto.
      destruct flt as [|f0 fs] eqn:EF.
      * cbn [negb andb].
        destruct (get_good (length (r_data r)) s2 _ G2) as (s3 & E3 & G3 & D3).
        { rewrite app_length. lia. }
        rewrite E3. cbn [bind fst snd].
        rewrite firstn_app, Nat.sub_diag, firstn_O, app_nil_r, firstn_all.
        rewrite skipn_app, Nat.sub_diag, skipn_all in G3. cbn [app skipn] in G3.
        eexists. eexists. split; [reflexivity|]. cbn [v_rc v_off v_log].
        repeat split; try apply G3; lia.
      * rewrite <- EF. cbn [negb andb filter fst].
        destruct (existsb (N.eqb (v_off st)) flt); cbn [negb].
        -- destruct (get_good (length (r_data r)) s2 _ G2) as (s3 & E3 & G3 & D3).
           { rewrite app_length. lia. }
           rewrite E3. cbn [bind fst snd].
           rewrite firstn_app, Nat.sub_diag, firstn_O, app_nil_r, firstn_all.
           rewrite skipn_app, Nat.sub_diag, skipn_all in G3. cbn [app skipn] in G3.
           eexists. eexists. split; [reflexivity|]. cbn [v_rc v_off v_log].
           repeat split; try apply G3; lia.
        -- eexists. eexists. split; [reflexivity|]. cbn [v_rc v_off v_log]. rewrite app_nil_r.
           repeat split; try apply S1; lia.
    + eexists. eexists. split; [reflexivity|]. cbn [v_rc v_off v_log]. rewrite app_nil_r.
      repeat split; try apply S1; lia.
  - cbn [app] in G1. rewrite <- R. destruct (SK s1 G1) as (S1 & S2 & S3 & S4).
    destruct (N.eqb_spec (r_id r) rid) as [Q|Q].
    + exfalso. rewrite <- Q, <- E, (vlsd_id_in _ _ H Hin) in V. congruence.
    + eexists. eexists. split; [reflexivity|]. cbn [v_rc v_off v_log]. rewrite app_nil_r.
      repeat split; try apply S1; lia.
Qed.

Lemma vlsd_cg_loop_end : forall fuel d rid flt mx st, dg_ok d ->
  (length (cur (v_rc st)) <= fi (v_rc st))%nat -> todo (v_rc st) = [] ->
  mx - dc (v_rc st) < N.of_nat fuel ->
  vlsd_cg_loop d rid flt mx fuel st = Some (Ok (v_log st)).
Proof.
  induction fuel; intros d rid flt mx st H Hf Ht HF; [lia|].
  cbn [vlsd_cg_loop].
  destruct (N.leb_spec mx (dc (v_rc st))); [reflexivity|].
  unfold vlsd_cg_step, parse_id.
  destruct (N.eqb_spec (d_idsize d) 0) as [Z|Z].
  - cbn [bind fst snd].
    destruct (d_groups d) as [|g0 gs] eqn:EG; [destruct (dg_some _ H EG)|].
    assert (Hin : In g0 (d_groups d)) by (rewrite EG; left; auto).
    rewrite (find_cg_in _ _ H Hin).
    destruct (g_vlsd g0) eqn:V.
    + unfold get_len. rewrite get_past_end by (auto; lia). reflexivity.
    + pose proof (dg_bytes _ H g0 Hin Z V) as P.
      destruct (skip_end (rec_size g0) (v_rc st) Hf Ht P) as (s' & E & F1 & F2 & F3).
      rewrite E. rewrite IHfuel; cbn [v_rc v_log]; auto. lia.
  - destruct ((d_idsize d =? 1) || (d_idsize d =? 2) || (d_idsize d =? 4) || (d_idsize d =? 8)) eqn:K; [|reflexivity].
    rewrite get_past_end by (auto; lia). reflexivity.
Qed.

Lemma requested_cons : forall flt p l, requested flt (p :: l) = requested flt [p] ++ requested flt l.
Proof.
  intros. unfold requested. destruct flt as [|a r]; [reflexivity|].
  cbn [filter]. destruct (existsb (N.eqb (fst p)) (a :: r)); reflexivity.
Qed.

Lemma vlsd_cg_records : forall recs d rid flt mx st fuel,
  dg_ok d -> Forall (rec_ok d) recs -> vlsd_id d rid = true ->
  (forall r, In r recs -> r_id r = rid -> N.of_nat (length (r_data r)) < 2 ^ 32 - 4) ->
  good (v_rc st) (stream d recs) ->
  dc (v_rc st) + N.of_nat (length (stream d recs)) <= mx ->
  mx - dc (v_rc st) < N.of_nat fuel ->
  vlsd_cg_loop d rid flt mx fuel st =
  Some (Ok (v_log st ++ requested flt (offsets_from (v_off st) (payloads rid recs)))).
Proof.
  induction recs as [|r t IH]; intros d rid flt mx st fuel H F V B G M L.
  - cbn [payloads filter map offsets_from]. cbn [stream map concat] in G.
    destruct (good_nil _ G). rewrite vlsd_cg_loop_end by auto.
    replace (requested flt []) with (@nil (N * list N)) by (destruct flt; reflexivity).
    rewrite app_nil_r. reflexivity.
  - inversion F as [|? ? HR HF]; subst.
    change (stream d (r :: t)) with (enc_rec d r ++ stream d t) in *. rewrite app_length in M.
    destruct (vlsd_cg_one d rid flt st r (stream d t)) as (b & st1 & E1 & G1 & O1 & L1 & D1 & D2); auto.
    { apply B; left; auto. }
    destruct fuel as [|fuel]; [lia|]. cbn [vlsd_cg_loop].
    pose proof (enc_rec_pos d r H HR).
    replace (mx <=? dc (v_rc st)) with false by lia.
    rewrite E1. rewrite (IH d rid flt mx st1 fuel) by (auto; try lia; intros; apply B; auto; right; auto).
    rewrite L1, <- app_assoc, O1. do 2 f_equal. f_equal.
    unfold vev, voff, payloads. cbn [filter]. destruct (r_id r =? rid); [|reflexivity].
    cbn [map offsets_from]. symmetry. apply requested_cons.
Qed.

Lemma read_vlsd_cg_ok : forall d rid flt recs blocks fuel,
  dg_ok d -> Forall (rec_ok d) recs -> vlsd_id d rid = true ->
  (forall r, In r recs -> r_id r = rid -> N.of_nat (length (r_data r)) < 2 ^ 32 - 4) ->
  Forall (fun b => b <> []) blocks -> concat blocks = stream d recs ->
  (length (stream d recs) < fuel)%nat ->
  read_vlsd_cg d rid flt fuel blocks =
  Some (Ok (requested flt (offsets_from 0 (payloads rid recs)))).
Proof.
  intros d rid flt recs blocks fuel H F V B HB E L. unfold read_vlsd_cg.
  rewrite (vlsd_cg_records recs); auto.
  - cbn [v_rc]. rewrite <- E. apply good_init; auto.
  - cbn [v_rc rc_init dc]. rewrite E. lia.
  - cbn [v_rc rc_init dc]. rewrite E. lia.
Qed.

(* ------------------------------------------------------------------ *)
(** ** Signal data *)

Definition small (p : list N) : Prop := N.of_nat (length p) < 2 ^ 32 - 4.

Lemma chunk_length : forall p, length (chunk p) = (4 + length p)%nat.
Proof. intros. unfold chunk. rewrite app_length, le_bytes_length. reflexivity. Qed.

Lemma signal_one : forall st p rest, small p -> good (v_rc st) (chunk p ++ rest) ->
  exists st', signal_step st = Ok st' /\ good (v_rc st') rest /\
    v_off st' = v_off st + 4 + N.of_nat (length p) /\
    v_log st' = v_log st ++ [(v_off st, p)] /\
    dc (v_rc st') = dc (v_rc st) + N.of_nat (length (chunk p)).
Proof.
  intros st p rest B G. unfold small in B. unfold chunk in G. rewrite <- app_assoc in G.
  destruct (get_len_good (length p) _ _ ltac:(lia) G) as (s1 & E1 & G1 & D1).
  destruct (get_good (length p) s1 _ G1) as (s3 & E3 & G3 & D3).
  { rewrite app_length. lia. }
  rewrite firstn_app, Nat.sub_diag, firstn_O, app_nil_r, firstn_all in E3.
  rewrite skipn_app, Nat.sub_diag, skipn_all in G3. cbn [app skipn] in G3.
  unfold signal_step. rewrite E1. cbn [bind fst snd]. rewrite E3. cbn [bind fst snd].
  eexists. split; [reflexivity|]. cbn [v_rc v_off v_log]. rewrite step_off_eq, chunk_length by auto.
  repeat split; try apply G3. lia.
Qed.

Lemma signal_loop_all : forall ps mx st fuel, Forall small ps ->
  good (v_rc st) (concat (map chunk ps)) ->
  dc (v_rc st) + N.of_nat (length (concat (map chunk ps))) = mx ->
  mx - dc (v_rc st) < N.of_nat fuel ->
  signal_loop mx fuel st = Some (Ok (v_log st ++ offsets_from (v_off st) ps)).
Proof.
  induction ps as [|p t IH]; intros mx st fuel F G M L.
  - destruct fuel; [lia|]. cbn [signal_loop]. cbn [map concat length] in M.
    replace (mx <=? dc (v_rc st)) with true by lia. cbn. rewrite app_nil_r. reflexivity.
  - apply Forall_cons_iff in F as [HP HF]. cbn [map concat] in *. rewrite app_length in *.
    destruct (signal_one st p _ HP G) as (st1 & E1 & G1 & O1 & L1 & D1).
    destruct fuel as [|fuel]; [lia|]. cbn [signal_loop].
    rewrite chunk_length in *.
    match goal with |- context [?a <=? ?b] => replace (a <=? b) with false by lia end.
    rewrite E1, (IH _ st1 fuel) by (auto; lia).
    rewrite L1, O1, <- app_assoc. reflexivity.
Qed.

(** Strictly increasing offsets (the iteration order of std::set). *)
Fixpoint increasing (l : list N) : Prop :=
  match l with
  | a :: ((b :: _) as t) => a < b /\ increasing t
  | _ => True
  end.

Lemma offsets_ge : forall ps off o p, In (o, p) (offsets_from off ps) -> off <= o.
Proof.
  induction ps as [|q t IH]; intros off o p H; [destruct H|].
  destruct H as [H|H]; [injection H as <- _; lia|]. apply IH in H. lia.
Qed.

Lemma offsets_split : forall ps off o, In o (map fst (offsets_from off ps)) ->
  exists pre p post, ps = pre ++ p :: post /\
    o = off + N.of_nat (length (concat (map chunk pre))).
Proof.
  induction ps as [|q t IH]; intros off o H; [destruct H|].
  destruct H as [H|H].
  - exists [], q, t. cbn in *. split; auto. lia.
  - apply IH in H as (pre & p & post & E1 & E2).
    exists (q :: pre), p, post. split; [rewrite E1; reflexivity|].
    cbn [map concat]. rewrite app_length, chunk_length. lia.
Qed.

Lemma offsets_from_app : forall a b off,
  offsets_from off (a ++ b) =
  offsets_from off a ++ offsets_from (off + N.of_nat (length (concat (map chunk a)))) b.
Proof.
  induction a as [|p t IH]; intros b off.
  - cbn [app map concat length offsets_from N.of_nat]. f_equal. lia.
  - cbn [app offsets_from map concat]. rewrite IH, app_length, chunk_length.
    cbn [app]. do 3 f_equal. lia.
Qed.

Lemma increasing_above : forall l a o, increasing (a :: l) -> In o l -> a < o.
Proof.
  induction l as [|b t IH]; intros a o H Hin; [destruct Hin|].
  destruct H as [H1 H2]. destruct Hin as [->|Hin]; auto.
  pose proof (IH b o H2 Hin). lia.
Qed.

Lemma increasing_tail : forall a l, increasing (a :: l) -> increasing l.
Proof. intros a [|b t] H; [exact I|destruct H; auto]. Qed.

Lemma filter_none : forall (A : Type) (f : A -> bool) l, (forall x, In x l -> f x = false) ->
  filter f l = [].
Proof.
  induction l; intros H; [reflexivity|]. cbn. rewrite H by (left; auto).
  apply IHl. intros; apply H; right; auto.
Qed.

Lemma existsb_eqb_in : forall o l, existsb (N.eqb o) l = true <-> In o l.
Proof.
  intros. rewrite existsb_exists. split.
  - intros (x & H & E). apply N.eqb_eq in E. subst; auto.
  - intros. exists o. split; auto. apply N.eqb_refl.
Qed.

Lemma offsets_lt : forall ps off o p, In (o, p) (offsets_from off ps) ->
  o < off + N.of_nat (length (concat (map chunk ps))).
Proof.
  induction ps as [|q t IH]; intros off o p H; [destruct H|].
  cbn [map concat]. rewrite app_length, chunk_length.
  destruct H as [H|H]; [injection H as <- _; lia|]. apply IH in H. lia.
Qed.

Lemma signal_offsets_ok : forall offs ps mx st, Forall small ps -> increasing offs ->
  good (v_rc st) (concat (map chunk ps)) ->
  dc (v_rc st) + N.of_nat (length (concat (map chunk ps))) <= mx ->
  (forall o, In o offs -> In o (map fst (offsets_from (v_off st) ps))) ->
  signal_offsets mx offs st =
  Ok (v_log st ++ filter (fun p => existsb (N.eqb (fst p)) offs) (offsets_from (v_off st) ps)).
Proof.
  induction offs as [|o r IH]; intros ps mx st F INC G M SUB.
  - cbn [signal_offsets]. rewrite filter_none by reflexivity. rewrite app_nil_r. reflexivity.
  - destruct (offsets_split _ _ _ (SUB o (or_introl eq_refl))) as (pre & p & post & EP & EO).
    rewrite EP, map_app, concat_app in G, M. cbn [map concat] in G, M.
    rewrite app_length, app_length, chunk_length in M.
    set (lp := length (concat (map chunk pre))) in *.
    cbn [signal_offsets]. unfold signal_offset_step.
    replace (mx <=? dc (v_rc st)) with false by lia.
    replace (o <? v_off st) with false by lia.
    set (s := if v_off st <? o then skip_bytes (N.to_nat (o - v_off st)) (v_rc st) else v_rc st).
    assert (K : good s (chunk p ++ concat (map chunk post)) /\ dc s <= dc (v_rc st) + N.of_nat lp).
    { unfold s. replace (N.to_nat (o - v_off st)) with lp by lia.
      destruct (N.ltb_spec (v_off st) o).
      - destruct (skip_good lp (v_rc st) _ G) as (G1 & D1 & _).
        { rewrite app_length. unfold lp. lia. }
        unfold lp in G1 at 2. rewrite skipn_app, Nat.sub_diag, skipn_all in G1. auto.
      - assert (lp = 0)%nat by lia. unfold lp in H0.
        destruct (concat (map chunk pre)); [|discriminate]. split; [exact G|lia]. }
    destruct K as [GS DS]. clearbody s.
    rewrite EP in F. apply Forall_app in F as [F1 F2]. inversion F2 as [|? ? HP HF]; subst x l.
    replace (mx <? dc s + 4) with false by lia.
    unfold chunk in GS. rewrite <- app_assoc in GS. unfold small in HP.
    destruct (get_len_good (length p) _ _ ltac:(lia) GS) as (s1 & E1 & G1 & D1).
    destruct (get_good (length p) s1 _ G1) as (s3 & E3 & G3 & D3).
    { rewrite app_length. lia. }
    rewrite firstn_app, Nat.sub_diag, firstn_O, app_nil_r, firstn_all in E3.
    rewrite skipn_app, Nat.sub_diag, skipn_all in G3. cbn [app skipn] in G3.
    rewrite E1. cbn [bind fst snd].
    replace (mx <? dc s1 + N.of_nat (length p)) with false by lia.
    rewrite E3. cbn [bind fst snd].
    (* the requested entries: those of pre are below o *)
    assert (EF : filter (fun q => existsb (N.eqb (fst q)) (o :: r)) (offsets_from (v_off st) ps)
      = (o, p) :: filter (fun q => existsb (N.eqb (fst q)) r)
                    (offsets_from (o + 4 + N.of_nat (length p)) post)).
    { rewrite EP, offsets_from_app, filter_app. fold lp. rewrite <- EO.
      rewrite filter_none.
      - cbn [app offsets_from filter fst existsb]. rewrite N.eqb_refl. cbn [orb]. f_equal.
        apply filter_ext_in. intros [o' p'] Hin. cbn [fst existsb].
        apply offsets_ge in Hin. replace (o' =? o) with false by lia. reflexivity.
      - intros [o' p'] Hin. cbn [fst]. apply offsets_lt in Hin. fold lp in Hin.
        apply not_true_is_false. intros C. apply existsb_eqb_in in C.
        destruct C as [C|C]; [lia|]. pose proof (increasing_above _ _ _ INC C). lia. }
    assert (SUB' : forall o', In o' r -> In o' (map fst (offsets_from (o + 4 + N.of_nat (length p)) post))).
    { intros o' Hin. pose proof (increasing_above _ _ _ INC Hin) as Hlt.
      specialize (SUB o' (or_intror Hin)). rewrite EP, offsets_from_app, map_app in SUB.
      fold lp in SUB. rewrite <- EO in SUB. apply in_app_or in SUB as [S|S].
      - apply in_map_iff in S as ([o1 p1] & Q & S). cbn in Q. subst o1.
        apply offsets_lt in S. fold lp in S. lia.
      - destruct S as [S|S]; [cbn in S; lia|exact S]. }
    destruct (N.ltb_spec (dc s3) mx) as [L|L].
    + rewrite (IH post); cbn [v_rc v_off v_log]; auto.
      * rewrite step_off_eq, <- app_assoc, EF by (unfold small; lia). reflexivity.
      * eapply increasing_tail; eauto.
      * lia.
      * rewrite step_off_eq by lia. exact SUB'.
    + cbn [v_log]. rewrite EF.
      assert (PN : concat (map chunk post) = []).
      { destruct (concat (map chunk post)); auto. cbn [length] in M. lia. }
      destruct post as [|q post].
      * reflexivity.
      * exfalso. cbn [map concat] in PN. apply app_eq_nil in PN as [PN _].
        apply (f_equal (@length N)) in PN. rewrite chunk_length in PN. cbn in PN. lia.
Qed.

Lemma read_signal_ok : forall offs ps blocks fuel, Forall small ps -> increasing offs ->
  Forall (fun b => b <> []) blocks -> concat blocks = concat (map chunk ps) ->
  (forall o, In o offs -> In o (map fst (offsets_from 0 ps))) ->
  (length (concat blocks) < fuel)%nat ->
  read_signal_data offs fuel blocks = Some (Ok (requested offs (offsets_from 0 ps))).
Proof.
  intros offs ps blocks fuel F INC HB E SUB L. unfold read_signal_data.
  destruct blocks as [|b0 bs] eqn:EB.
  - cbn in E. destruct ps as [|p t].
    + destruct offs; reflexivity.
    + cbn [map concat] in E. symmetry in E. apply app_eq_nil in E as [E _].
      apply (f_equal (@length N)) in E. rewrite chunk_length in E. cbn in E. lia.
  - rewrite <- EB in *. clear EB. destruct offs as [|o r] eqn:EOF.
    + rewrite (signal_loop_all ps); auto.
      * cbn [v_rc]. rewrite <- E. apply good_init; auto.
      * cbn [v_rc rc_init dc]. rewrite E. lia.
      * cbn [v_rc rc_init dc]. lia.
    + rewrite <- EOF in *. rewrite (signal_offsets_ok offs ps); auto.
      * cbn [v_log v_off app]. rewrite EOF. reflexivity.
      * cbn [v_rc]. rewrite <- E. apply good_init; auto.
      * cbn [v_rc rc_init dc]. rewrite E. lia.
Qed.
