(** Rewriting data groups and the header in place. *)
From Verif Require Import Base BlockModel BlockSpec BlockProofs BlockProofs2 BlockProofs3 BlockProofs4
  MetaModel MetaSpec MetaProofs MetaProofs3 MeasModel MeasProofs MeasProofs2.
Local Open Scope N_scope.

(* ------------------------------------------------------------------ *)
(** ** Data groups *)

Lemma dg_keeps_pl : forall d, keeps_pl dg_places d.
Proof.
  intros d f ws NE W. unfold dg_places.
  apply (places_keep write_cg no_place keeps_cg cg_keeps_pl); [exact NE|exact W|exact Logic.I].
Qed.

Definition cg_up (g : cg) : nat * unit -> writes_l := fun '(p, _) => cg_writes p g.

Lemma dg_writes_zip : forall pls d, dg_writes pls d = zip_writes (map cg_up (d_cgs d)) pls.
Proof.
  intros pls d. unfold dg_writes, zip_writes. generalize (d_cgs d). intros gs. revert pls.
  induction gs as [|g gs IH]; intros [|[p u] pls]; cbn [combine map concat]; auto.
  rewrite IH. reflexivity.
Qed.

Lemma patches_cg : forall gs gs', Forall2 same_cg gs gs' -> patches write_cg no_place gs gs' (map cg_up gs').
Proof. induction 1; cbn [map]; constructor; auto. apply patch_cg. auto. Qed.

Lemma patch_dg_cgs : forall d gs' us, patches write_cg no_place (d_cgs d) gs' us ->
  patch write_dg dg_places d (mkDg (d_idsize d) (d_md d) (d_link d) gs') (fun '(_, cgs) => zip_writes us cgs).
Proof.
  intros d gs' us F f f1 p NE E. cbv zeta.
  unfold write_dg in *. cbn [d_cgs d_md d_link d_idsize].
  pose proof (proj1 (chain_keeps write_cg (d_cgs d) ltac:(apply Forall_forall; intros; apply keeps_cg)) f NE) as [G1 _].
  pose proof (chain_patch write_cg no_place keeps_cg cg_keeps_pl _ _ _ F None f) as K.
  destruct (write_chain write_cg None (d_cgs d) f) as [[a1 l1]| |]; try discriminate. cbn [bind] in *.
  specialize (G1 a1 l1 eq_refl).
  destruct (K a1 l1 NE Logic.I eq_refl) as (K1 & K2 & K3 & K4). clear K. rewrite K1. cbn [bind].
  change (chain_places write_cg no_place None (d_cgs d) f) with (dg_places d f) in *.
  set (ws := zip_writes us (dg_places d f)) in *.
  destruct (keeps_md (d_md d) a1 ltac:(lia)) as [G2 C2]. rewrite C2 by exact K2.
  destruct (write_md (d_md d) a1) as [[a2 l3]| |]; try discriminate. unfold after. cbn [bind] in *.
  specialize (G2 a2 l3 eq_refl).
  assert (WA : within (length a2) ws) by (eapply within_le; [exact G2|exact K2]).
  destruct (keeps_write ty_dg 64 [0; l1; d_link d; l3] (fields_bytes [(1%nat, d_idsize d); (7%nat, 0)]) a2 ltac:(lia)) as [G3 C3].
  destruct (keeps_last ty_dg 64 [0; l1; d_link d; l3] (fields_bytes [(1%nat, d_idsize d); (7%nat, 0)]) ltac:(discriminate)) as [_ P3].
  specialize (P3 a2 f1 p ltac:(lia) E).
  rewrite C3 by exact WA.
  destruct (write_block4 ty_dg 64 [0; l1; d_link d; l3] (fields_bytes [(1%nat, d_idsize d); (7%nat, 0)]) a2) as [[a3 b]| |]; try discriminate.
  unfold after. cbn [bind] in *. apply ok_pair in E. destruct E as [<- <-]. specialize (G3 a3 b eq_refl).
  split; [reflexivity|]. split; [eapply within_le; [exact G3|exact WA]|]. split; [exact K3|].
  split; [apply (within_apart (length a2)); [lia|exact WA]|]. exact K4.
Qed.

Lemma patch_dg_counts : forall d gs', Forall2 same_cg (d_cgs d) gs' ->
  let d' := mkDg (d_idsize d) (d_md d) (d_link d) gs' in
  patch write_dg dg_places d d' (fun '(_, cgs) => dg_writes cgs d').
Proof.
  intros d gs' F d'. apply (patch_ext _ _ _ _ (fun '(_, cgs) => zip_writes (map cg_up gs') cgs)).
  - intros [p cgs]. symmetry. apply dg_writes_zip.
  - apply patch_dg_cgs. apply patches_cg. exact F.
Qed.

Lemma patch_dg_link : forall d l,
  patch write_dg dg_places d (set_link l d) (fun '(p, _) => [(p + 24 + 8 * 2, le_bytes 8 l)]%nat).
Proof.
  intros d l f f1 p NE E. cbv zeta.
  unfold write_dg in *. unfold set_link. cbn [d_cgs d_md d_link d_idsize].
  pose proof (proj1 (chain_keeps write_cg (d_cgs d) ltac:(apply Forall_forall; intros; apply keeps_cg)) f NE) as [G1 _].
  destruct (write_chain write_cg None (d_cgs d) f) as [[a1 l1]| |]; try discriminate. cbn [bind] in *.
  specialize (G1 a1 l1 eq_refl).
  destruct (keeps_md (d_md d) a1 ltac:(lia)) as [G2 _].
  destruct (write_md (d_md d) a1) as [[a2 l3]| |]; try discriminate. cbn [bind] in *.
  specialize (G2 a2 l3 eq_refl).
  rewrite write_block4_spec in E by lia. rewrite write_block4_spec by lia. cbn [bind b_pos] in *.
  apply ok_pair in E. destruct E as [<- <-].
  set (pos := (length a2 + pad8 (length a2))%nat).
  set (body := fields_bytes [(1%nat, d_idsize d); (7%nat, 0)]).
  cbn [length]. set (size := N.of_nat (24 + 8 * 4 + length body)).
  set (H1 := str_bytes 4 ty_dg ++ repeat 0 4 ++ le_bytes 8 size ++ le_bytes 8 (N.of_nat 4) ++ le_bytes 8 0 ++ le_bytes 8 l1).
  assert (HE : forall z, header_bytes ty_dg size [0; l1; z; l3] = H1 ++ le_bytes 8 z ++ le_bytes 8 l3).
  { intros z. unfold header_bytes, H1. cbn [map concat length]. rewrite <- !app_assoc, app_nil_r. reflexivity. }
  rewrite !HE. clear HE.
  assert (LH : length H1 = 40%nat).
  { unfold H1. rewrite !app_length, str_bytes_length, repeat_length, !le_bytes_length. reflexivity. }
  clearbody H1. clearbody size. assert (LB : length body = 8%nat) by reflexivity. clearbody body.
  set (A := a2 ++ repeat 0 (pad8 (length a2)) ++ H1).
  assert (LA : length A = (pos + 40)%nat) by (unfold A, pos; rewrite !app_length, repeat_length; lia).
  assert (RA : forall z, a2 ++ repeat 0 (pad8 (length a2)) ++ (H1 ++ le_bytes 8 z ++ le_bytes 8 l3) ++ body
     = A ++ le_bytes 8 z ++ le_bytes 8 l3 ++ body) by (intros z; unfold A; rewrite <- !app_assoc; reflexivity).
  rewrite !RA. clear RA. clearbody A. assert (PG : (length f <= pos)%nat) by (unfold pos; lia). clearbody pos.
  split.
  { rewrite puts_cons. unfold puts. cbn [fold_left].
    replace (pos + 24 + 8 * 2)%nat with (length A) by lia.
    rewrite put_mid by (rewrite !le_bytes_length; reflexivity). reflexivity. }
  assert (LT : length (A ++ le_bytes 8 (d_link d) ++ le_bytes 8 l3 ++ body) = (pos + 64)%nat).
  { rewrite !app_length, !le_bytes_length. lia. }
  unfold within, apart. rewrite LT.
  split; [apply Forall_cons; [|apply Forall_nil]; cbn [fst snd]; rewrite le_bytes_length; lia|].
  split; [apply Forall_cons; [|apply Forall_nil]; cbn [fst snd]; lia|].
  split; [apply Forall_cons; [|apply Forall_nil]; cbn [fst snd]; right; lia|]. reflexivity.
Qed.

(* ------------------------------------------------------------------ *)
(** ** The header *)

(** A part of the header: blocks, then the link to them. *)
Definition part (b : blk) (i : nat) (wr : file -> res (file * N)) (f : file) : res (file * blk) :=
  bind (wr f) (fun p => let '(f, l) := p in update_link4 b i l f).

Lemma part_keeps : forall b i wr f, keeps wr -> (i < 6)%nat -> (0 < length f)%nat -> (b_pos b + 72 <= length f)%nat ->
  (forall f' b', part b i wr f = Ok (f', b') -> (length f <= length f')%nat /\ b_pos b' = b_pos b) /\
  forall ws, within (length f) ws -> apart (b_pos b + 24) (b_pos b + 72) ws ->
    part b i wr (puts f ws) = after ws (part b i wr f).
Proof.
  intros b i wr f K LI NE LB. unfold part. destruct (K f NE) as [G C]. split.
  - intros f' b' E. destruct (wr f) as [[f1 l]| |]; try discriminate. cbn [bind] in E. specialize (G f1 l eq_refl).
    apply link_length in E; [lia|]. lia.
  - intros ws W A. rewrite (C ws W). destruct (wr f) as [[f1 l]| |]; try reflexivity. unfold after at 1. cbn [bind].
    specialize (G f1 l eq_refl). apply keeps_link; [lia|eapply within_le; [exact G|exact W]|].
    eapply Forall_impl; [|exact A]. cbv beta. intros w D. clear - D LI. lia.
Qed.

(** What follows the HD block itself. *)
Definition head_rest (h : hd) (b : blk) (f : file) : res (file * blk) :=
  let* '(f, b) := part b 1 (write_chain write_fh None (h_fhs h)) f in
  let* '(f, b) := part b 5 (write_md (h_md h)) f in
  let* '(f, b) := part b 3 (write_chain write_at None (h_ats h)) f in
  let* '(f, b) := part b 2 (write_chain write_ch None (h_chs h)) f in
  part b 4 (write_chain write_ev None (h_evs h)) f.

Lemma bind_bind : forall {A B C} (r : res A) (k : A -> res B) (m : B -> res C),
  bind (bind r k) m = bind r (fun x => bind (k x) m).
Proof. intros A B C [x| |] k m; reflexivity. Qed.

Lemma bind_ext : forall {A B} (r : res A) (k m : A -> res B), (forall x, k x = m x) -> bind r k = bind r m.
Proof. intros A B [x| |] k m H; cbn; auto. Qed.

Lemma head_eq : forall h f, write_hd_head h f =
  bind (write_block4 ty_hd 104 [0; 0; 0; 0; 0; 0] (fields_bytes (hd_fields h)) f)
    (fun p => let '(f, b) := p in head_rest h b f).
Proof.
  intros h f. unfold write_hd_head, head_rest, part. apply bind_ext. intros [f1 b1].
  repeat (rewrite ?bind_bind; apply bind_ext; intros [? ?]). reflexivity.
Qed.

Lemma rest_keeps : forall h b f, (0 < length f)%nat -> (b_pos b + 72 <= length f)%nat ->
  (forall f' b', head_rest h b f = Ok (f', b') -> (length f <= length f')%nat /\ b_pos b' = b_pos b) /\
  forall ws, within (length f) ws -> apart (b_pos b + 24) (b_pos b + 72) ws ->
    head_rest h b (puts f ws) = after ws (head_rest h b f).
Proof.
  intros h b f NE LB. unfold head_rest.
  assert (step : forall i wr b f (k : blk -> file -> res (file * blk)), keeps wr -> (i < 6)%nat -> (0 < length f)%nat ->
     (b_pos b + 72 <= length f)%nat ->
     (forall b' f, b_pos b' = b_pos b -> (0 < length f)%nat -> (b_pos b + 72 <= length f)%nat ->
        (forall f' b'', k b' f = Ok (f', b'') -> (length f <= length f')%nat /\ b_pos b'' = b_pos b) /\
        forall ws, within (length f) ws -> apart (b_pos b + 24) (b_pos b + 72) ws -> k b' (puts f ws) = after ws (k b' f)) ->
     (forall f' b', bind (part b i wr f) (fun p => let '(f, b) := p in k b f) = Ok (f', b') -> (length f <= length f')%nat /\ b_pos b' = b_pos b) /\
     forall ws, within (length f) ws -> apart (b_pos b + 24) (b_pos b + 72) ws ->
       bind (part b i wr (puts f ws)) (fun p => let '(f, b) := p in k b f) = after ws (bind (part b i wr f) (fun p => let '(f, b) := p in k b f))).
  { clear. intros i wr b f k K LI NE LB H. destruct (part_keeps b i wr f K LI NE LB) as [G C]. split.
    - intros f' b' E. destruct (part b i wr f) as [[f1 b1]| |]; try discriminate. cbn [bind] in E.
      destruct (G f1 b1 eq_refl) as [G1 G2]. destruct (H b1 f1 G2 ltac:(lia) ltac:(lia)) as [H1 _].
      specialize (H1 _ _ E). lia.
    - intros ws W A. rewrite (C ws W A). destruct (part b i wr f) as [[f1 b1]| |]; try reflexivity.
      unfold after at 1. cbn [bind]. destruct (G f1 b1 eq_refl) as [G1 G2].
      destruct (H b1 f1 G2 ltac:(lia) ltac:(lia)) as [_ H2]. apply H2; [eapply within_le; [exact G1|exact W]|exact A]. }
  assert (CK : forall T (wr : T -> file -> res (file * nat)) xs, (forall x, keeps_block (wr x)) -> keeps (write_chain wr None xs)).
  { intros T wr xs H. apply chain_keeps. apply Forall_forall. auto. }
  apply step; [apply CK, keeps_fh|lia|exact NE|exact LB|]. intros b1 f1 E1 NE1 LB1. rewrite <- E1 in *.
  apply step; [apply keeps_md|lia|exact NE1|exact LB1|]. intros b2 f2 E2 NE2 LB2. rewrite <- E2 in *.
  apply step; [apply CK, keeps_at|lia|exact NE2|exact LB2|]. intros b3 f3 E3 NE3 LB3. rewrite <- E3 in *.
  apply step; [apply CK, keeps_ch|lia|exact NE3|exact LB3|]. intros b4 f4 E4 NE4 LB4. rewrite <- E4 in *.
  apply part_keeps; [apply CK, keeps_ev|lia|exact NE4|exact LB4].
Qed.

Lemma head_place : forall h f f1 b, (0 < length f)%nat -> write_hd_head h f = Ok (f1, b) ->
  b_pos b = (length f + pad8 (length f))%nat /\ (b_pos b + 104 <= length f1)%nat.
Proof.
  intros h f f1 b NE E. rewrite head_eq, write_block4_spec in E by auto. cbn [bind] in E.
  match type of E with head_rest h ?x ?y = _ => destruct (rest_keeps h x y) as [G _] end.
  - rewrite !app_length, header_bytes_length. cbn [length]. lia.
  - rewrite !app_length, header_bytes_length, repeat_length. cbn [length b_pos]. lia.
  - destruct (G _ _ E) as [G1 G2]. cbn [b_pos] in G2. split; [exact G2|]. rewrite G2.
    rewrite !app_length, header_bytes_length, repeat_length in G1. cbn [length] in G1.
    change (length (fields_bytes (hd_fields h))) with 32%nat in G1. lia.
Qed.

(** Other data groups. *)
Lemma hd_patch_dgs : forall h ds' us f f1 b, (0 < length f)%nat -> patches write_dg dg_places (h_dgs h) ds' us ->
  write_hd h f = Ok (f1, b) ->
  let ws := zip_writes us (hd_places h f) in
  write_hd (set_dgs h ds') f = Ok (puts f1 ws, b) /\ within (length f1) ws /\
  Forall (fun w => (length f <= fst w)%nat) ws /\ hd_places (set_dgs h ds') f = hd_places h f.
Proof.
  intros h ds' us f f1 b NE PS E. cbv zeta. unfold write_hd in *. unfold hd_places.
  change (write_hd_head (set_dgs h ds') f) with (write_hd_head h f). change (h_dgs (set_dgs h ds')) with ds'.
  pose proof (head_place h f) as HP.
  destruct (write_hd_head h f) as [[a1 b1]| |]; try discriminate. cbn [bind] in *.
  destruct (HP a1 b1 NE eq_refl) as [HP1 HP2]. clear HP.
  pose proof (chain_patch write_dg dg_places keeps_dg dg_keeps_pl _ _ _ PS None a1) as K.
  pose proof (proj1 (chain_keeps write_dg (h_dgs h) ltac:(apply Forall_forall; intros; apply keeps_dg)) a1 ltac:(lia)) as [G1 _].
  destruct (write_chain write_dg None (h_dgs h) a1) as [[a2 l]| |]; try discriminate. cbn [bind] in *.
  specialize (G1 a2 l eq_refl).
  destruct (K a2 l ltac:(lia) Logic.I eq_refl) as (K1 & K2 & K3 & K4). clear K. rewrite K1. cbn [bind].
  set (ws := zip_writes us (chain_places write_dg dg_places None (h_dgs h) a1)) in *.
  rewrite keeps_link; [|lia|exact K2|].
  2: { eapply Forall_impl; [|exact K3]. cbv beta. intros w D. right. lia. }
  rewrite E. unfold after. cbn [bind]. split; [reflexivity|].
  apply link_length in E; [|lia]. destruct E as [E _]. unfold within in *. rewrite E. split; [exact K2|].
  split; [|exact K4]. eapply Forall_impl; [|exact K3]. cbv beta. intros w D. lia.
Qed.

(** Other fields. *)
Definition same_parts (h h' : hd) : Prop :=
  h_md h' = h_md h /\ h_fhs h' = h_fhs h /\ h_ats h' = h_ats h /\ h_chs h' = h_chs h /\ h_evs h' = h_evs h /\
  h_dgs h' = h_dgs h.

Lemma hd_patch_fields : forall h h' f f1 b, (0 < length f)%nat -> same_parts h h' ->
  write_hd h f = Ok (f1, b) ->
  let ws := [(b_pos b + 72, fields_bytes (hd_fields h'))]%nat in
  write_hd h' f = Ok (puts f1 ws, b) /\ within (length f1) ws /\ hd_places h' f = hd_places h f /\
  (length f <= b_pos b)%nat.
Proof.
  intros h h' f f1 b NE (S1 & S2 & S3 & S4 & S5 & S6) E. cbv zeta.
  assert (HR : forall b f, head_rest h' b f = head_rest h b f) by (intros; unfold head_rest; rewrite S1, S2, S3, S4, S5; reflexivity).
  unfold write_hd, hd_places in *. rewrite S6.
  pose proof (head_place h f) as HP.
  assert (HH : write_hd_head h' f = after [((length f + pad8 (length f)) + 72, fields_bytes (hd_fields h'))]%nat (write_hd_head h f)).
  { rewrite !head_eq, !write_block4_spec by auto. cbn [bind].
    change (length (fields_bytes (hd_fields h'))) with (length (fields_bytes (hd_fields h))).
    match goal with |- context [mkB ?p ty_hd ?s ?ls] => set (bb := mkB p ty_hd s ls); set (size := s) end.
    rewrite HR.
    set (A := f ++ repeat 0 (pad8 (length f)) ++ header_bytes ty_hd size [0; 0; 0; 0; 0; 0]).
    assert (RA : forall z, f ++ repeat 0 (pad8 (length f)) ++ header_bytes ty_hd size [0; 0; 0; 0; 0; 0] ++ z = A ++ z)
      by (intros z; unfold A; rewrite <- !app_assoc; reflexivity).
    rewrite !RA. clear RA.
    assert (LA : length A = ((length f + pad8 (length f)) + 72)%nat).
    { unfold A. rewrite !app_length, repeat_length, header_bytes_length. cbn [length]. lia. }
    rewrite <- LA.
    assert (EP : A ++ fields_bytes (hd_fields h') = puts (A ++ fields_bytes (hd_fields h)) [(length A, fields_bytes (hd_fields h'))]).
    { unfold puts. cbn [fold_left].
      pose proof (put_mid A (fields_bytes (hd_fields h)) [] (fields_bytes (hd_fields h')) eq_refl) as Q.
      rewrite !app_nil_r in Q. symmetry. exact Q. }
    rewrite EP.
    assert (BP : b_pos bb = (length f + pad8 (length f))%nat) by reflexivity.
    destruct (rest_keeps h bb (A ++ fields_bytes (hd_fields h))) as [_ C].
    - rewrite app_length. lia.
    - rewrite app_length, BP. lia.
    - apply C.
      + apply Forall_cons; [|apply Forall_nil]. cbn [fst snd]. rewrite app_length.
        change (length (fields_bytes (hd_fields h'))) with 32%nat. change (length (fields_bytes (hd_fields h))) with 32%nat. lia.
      + apply Forall_cons; [|apply Forall_nil]. cbn [fst snd]. right. lia. }
  rewrite HH. destruct (write_hd_head h f) as [[a1 b1]| |]; try discriminate. unfold after. cbn [bind] in *.
  destruct (HP a1 b1 NE eq_refl) as [HP1 HP2]. clear HP HH. rewrite <- HP1.
  set (ws := [((b_pos b1 + 72)%nat, fields_bytes (hd_fields h'))]).
  assert (W : within (length a1) ws).
  { apply Forall_cons; [|apply Forall_nil]. cbn [fst snd]. change (length (fields_bytes (hd_fields h'))) with 32%nat. lia. }
  destruct (proj1 (chain_keeps write_dg (h_dgs h) ltac:(apply Forall_forall; intros; apply keeps_dg)) a1 ltac:(lia)) as [G1 C1].
  rewrite C1 by exact W.
  destruct (write_chain write_dg None (h_dgs h) a1) as [[a2 l]| |]; try discriminate. unfold after. cbn [bind] in *.
  specialize (G1 a2 l eq_refl).
  assert (W2 : within (length a2) ws) by (eapply within_le; [exact G1|exact W]).
  rewrite keeps_link; [|lia|exact W2|apply Forall_cons; [|apply Forall_nil]; cbn [fst snd]; right; lia].
  rewrite E. unfold after. cbn [bind]. apply link_length in E; [|lia]. destruct E as [E EB]. rewrite EB.
  split; [reflexivity|]. unfold within in *. rewrite E. split; [exact W2|].
  split; [|lia]. apply (places_keep write_dg dg_places keeps_dg dg_keeps_pl); [lia|exact W|exact Logic.I].
Qed.
