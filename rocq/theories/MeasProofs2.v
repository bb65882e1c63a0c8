(** The file of a changed description is the file of the description with the changed blocks
    rewritten in place. *)
From Verif Require Import Base BlockModel BlockSpec BlockProofs BlockProofs2 BlockProofs3 BlockProofs4
  MetaModel MetaSpec MetaProofs MetaProofs3 MeasModel MeasProofs.
Local Open Scope N_scope.

Notation writes_l := (list (nat * list N)).

Lemma puts_comm : forall n a b f, within n a -> within (length f) a -> within (length f) b ->
  Forall (fun w => (n <= fst w)%nat) b -> puts (puts f a) b = puts (puts f b) a.
Proof.
  intros n a b f WA LA LB GB. revert f LA LB. induction b as [|[q bs] r IH]; intros f LA LB; [reflexivity|].
  inversion LB as [|? ? L1 L2]; subst. inversion GB as [|? ? G1 G2]; subst. cbn [fst snd] in *.
  rewrite !puts_cons. rewrite <- (puts_put a) by (auto; apply (within_apart n); auto).
  apply IH; auto; rewrite put_length; auto.
Qed.

Lemma after_after : forall {A} a b (r : res (file * A)), after b (after a r) = after (a ++ b) r.
Proof. intros A a b [[f x]| |]; try reflexivity. unfold after. cbn [bind]. rewrite puts_app. reflexivity. Qed.

(** The link of the block before is in the file and not rewritten. *)
Definition prev_ok (prev : option nat) (f : file) (ws : writes_l) : Prop :=
  match prev with
  | None => True
  | Some q => (q + 32 <= length f)%nat /\ apart (q + 24) (q + 32) ws
  end.
Definition relink (prev : option nat) (pos : nat) (f : file) : file :=
  match prev with Some q => put f (q + 24) (le_bytes 8 (N.of_nat pos)) | None => f end.

Lemma chain_keep : forall {T} (wr : T -> file -> res (file * nat)) xs prev f ws,
  Forall (fun x => keeps_block (wr x)) xs -> (0 < length f)%nat -> within (length f) ws -> prev_ok prev f ws ->
  (forall f' a, write_chain wr prev xs f = Ok (f', a) -> (length f <= length f')%nat) /\
  write_chain wr prev xs (puts f ws) = after ws (write_chain wr prev xs f).
Proof.
  intros T wr xs prev f ws F NE W P. destruct (chain_keeps wr xs F) as [K1 K2]. destruct prev as [q|].
  - destruct P as [P1 P2]. apply K2; auto.
  - destruct (K1 f NE) as [G C]. split; auto.
Qed.

Lemma relink_length : forall prev pos f n, prev_ok prev f [] -> (length f <= n)%nat -> forall g, length g = n ->
  length (relink prev pos g) = n.
Proof.
  intros [q|] pos f n P L g E; [|exact E]. destruct P as [P _]. cbn [relink].
  rewrite put_length; auto. rewrite le_bytes_length. lia.
Qed.

Lemma relink_puts : forall prev pos f ws g, prev_ok prev f ws -> (length f <= length g)%nat -> within (length g) ws ->
  relink prev pos (puts g ws) = puts (relink prev pos g) ws.
Proof.
  intros [q|] pos f ws g P L W; [|reflexivity]. destruct P as [P1 P2]. cbn [relink]. symmetry. apply puts_put; auto.
  - rewrite le_bytes_length. lia.
  - rewrite le_bytes_length. replace (q + 24 + 8)%nat with (q + 32)%nat by lia. exact P2.
Qed.

Lemma prev_weaken : forall prev f ws, prev_ok prev f ws -> prev_ok prev f [].
Proof. intros [q|] f ws P; [|exact P]. destruct P. split; [auto|constructor]. Qed.

(* ------------------------------------------------------------------ *)
(** ** Lists of blocks *)

Section ChainPatch.
Context {T P : Type} (wr : T -> file -> res (file * nat)) (pl : T -> file -> P).

Definition keeps_pl (x : T) : Prop := forall f ws, (0 < length f)%nat -> within (length f) ws ->
  pl x (puts f ws) = pl x f.

(** [x'] is written as [x], with the writes [u] in it. *)
Definition patch (x x' : T) (u : nat * P -> writes_l) : Prop := forall f f1 p, (0 < length f)%nat ->
  wr x f = Ok (f1, p) ->
  let ws := u (p, pl x f) in
  wr x' f = Ok (puts f1 ws, p) /\ within (length f1) ws /\ Forall (fun w => (length f <= fst w)%nat) ws /\
  apart (p + 24) (p + 32) ws /\ pl x' f = pl x f.

Inductive patches : list T -> list T -> list (nat * P -> writes_l) -> Prop :=
| patches_nil : patches [] [] []
| patches_cons : forall x x' u xs xs' us, patch x x' u -> patches xs xs' us ->
    patches (x :: xs) (x' :: xs') (u :: us).

Definition zip_writes (us : list (nat * P -> writes_l)) (pls : list (nat * P)) : writes_l :=
  concat (map (fun '(u, z) => u z) (combine us pls)).

Lemma patch_same : forall x, patch x x (fun _ => []).
Proof.
  intros x f f1 p NE E. cbv zeta. split; [exact E|]. split; [constructor|]. split; [constructor|].
  split; [constructor|reflexivity].
Qed.

Context (KB : forall x, keeps_block (wr x)) (KP : forall x, keeps_pl x).

Lemma places_keep : forall xs prev f ws, (0 < length f)%nat -> within (length f) ws -> prev_ok prev f ws ->
  chain_places wr pl prev xs (puts f ws) = chain_places wr pl prev xs f.
Proof.
  induction xs as [|x r IH]; intros prev f ws NE W PO; [reflexivity|]. cbn [chain_places].
  destruct (KB x) as [K B]. destruct (K f NE) as [G C]. rewrite (C ws W).
  destruct (wr x f) as [[f1 pos]| |] eqn:E; try reflexivity. unfold after. cbn [bind].
  specialize (G f1 pos eq_refl). specialize (B f f1 pos NE E). rewrite KP by auto. f_equal.
  assert (W1 : within (length f1) ws) by (eapply within_le; [exact G|exact W]).
  pose proof (relink_puts prev pos f ws f1 PO G W1) as R. unfold relink in R. rewrite R. clear R.
  pose proof (relink_length prev pos f (length f1) (prev_weaken _ _ _ PO) G f1 eq_refl) as RL. unfold relink in RL.
  apply IH.
  - lia.
  - rewrite RL. exact W1.
  - split; [lia|]. apply (within_apart (length f)); [lia|exact W].
Qed.

Lemma chain_patch : forall xs xs' us, patches xs xs' us -> forall prev f f' a, (0 < length f)%nat ->
  prev_ok prev f [] -> write_chain wr prev xs f = Ok (f', a) ->
  let ws := zip_writes us (chain_places wr pl prev xs f) in
  write_chain wr prev xs' f = Ok (puts f' ws, a) /\ within (length f') ws /\
  Forall (fun w => (length f <= fst w)%nat) ws /\
  chain_places wr pl prev xs' f = chain_places wr pl prev xs f.
Proof.
  induction 1 as [|x x' u xs xs' us PX PS IH]; intros prev f f' a NE PO E; cbv zeta.
  { cbn [write_chain] in *. apply ok_pair in E. destruct E as [<- <-]. unfold zip_writes. cbn [combine map concat].
    split; [reflexivity|]. split; [constructor|]. split; [constructor|reflexivity]. }
  cbn [write_chain chain_places] in *.
  destruct (wr x f) as [[f1 pos]| |] eqn:E1; try discriminate. cbn [bind] in E.
  destruct (PX f f1 pos NE E1) as (W1 & WI & WG & WA & PE). rewrite W1. cbn [bind].
  set (ws := u (pos, pl x f)) in *.
  destruct (KB x) as [K B]. destruct (K f NE) as [G _]. specialize (G f1 pos E1). specialize (B f f1 pos NE E1). clear K.
  change (match prev with Some q => put f1 (q + 24) (le_bytes 8 (N.of_nat pos)) | None => f1 end)%nat
    with (relink prev pos f1) in *.
  change (match prev with Some q => put (puts f1 ws) (q + 24) (le_bytes 8 (N.of_nat pos)) | None => puts f1 ws end)%nat
    with (relink prev pos (puts f1 ws)) in *.
  assert (PW : prev_ok prev f ws).
  { destruct prev as [q|]; [|exact Logic.I]. destruct PO as [PO _]. split; [exact PO|].
    eapply Forall_impl; [|exact WG]. cbv beta. intros w LW. right. clear - LW PO. lia. }
  rewrite (relink_puts prev pos f ws f1 PW G WI).
  pose proof (relink_length prev pos f (length f1) PO G f1 eq_refl) as RL.
  set (f2 := relink prev pos f1) in *.
  destruct (write_chain wr (Some pos) xs f2) as [[f3 z]| |] eqn:E3; try discriminate. cbn [bind] in E.
  apply ok_pair in E. destruct E as [<- <-].
  assert (PO2 : prev_ok (Some pos) f2 []) by (split; [lia|constructor]).
  destruct (IH (Some pos) f2 f3 z ltac:(lia) PO2 E3) as (I1 & I2 & I3 & I4).
  assert (WI2 : within (length f2) ws) by (rewrite RL; exact WI).
  assert (PO3 : prev_ok (Some pos) f2 ws) by (split; [lia|exact WA]).
  destruct (chain_keep wr xs (Some pos) f2 [] ltac:(apply Forall_forall; auto) ltac:(lia) ltac:(constructor) PO2) as [G3 _].
  specialize (G3 _ _ E3).
  destruct (chain_keep wr xs' (Some pos) f2 ws ltac:(apply Forall_forall; auto) ltac:(lia) WI2 PO3) as [_ C].
  rewrite C, I1. unfold after. cbn [bind].
  set (rest := zip_writes us (chain_places wr pl (Some pos) xs f2)) in *.
  assert (EZ : zip_writes (u :: us) ((pos, pl x f) :: chain_places wr pl (Some pos) xs f2) = ws ++ rest) by reflexivity.
  rewrite EZ. clear EZ.
  assert (WI3 : within (length f3) ws) by (eapply within_le; [exact G3|exact WI2]).
  split.
  { f_equal. f_equal. rewrite puts_app. symmetry. apply (puts_comm (length f2)); auto. }
  split; [apply Forall_app; split; auto|]. split.
  { apply Forall_app. split; [exact WG|]. eapply Forall_impl; [|exact I3]. cbv beta. intros w LW. clear - LW RL G. lia. }
  rewrite PE. f_equal. rewrite places_keep by (auto; lia). exact I4.
Qed.

End ChainPatch.

(* ------------------------------------------------------------------ *)
(** ** Channel groups *)

Definition same_cg (g g' : cg) : Prop :=
  g' = mkCg (g_record g) (g_samples g') (g_flags g) (g_separator g) (g_data g') (g_inval g') (g_name g) (g_si g)
         (g_md g) (g_cns g) /\
  (is_vlsd g = false -> g_data g' = g_data g /\ g_inval g' = g_inval g).

Definition no_place (_ : cg) (_ : file) : unit := tt.

Lemma cg_keeps_pl : forall g, keeps_pl no_place g.
Proof. intros g f ws _ _. reflexivity. Qed.

(** [g] with the first [j] counters of [g'] that are written. *)
Definition mix_cg (j : nat) (g g' : cg) : cg :=
  mkCg (g_record g) (if (1 <=? j)%nat then g_samples g' else g_samples g) (g_flags g) (g_separator g)
    (if is_vlsd g && (2 <=? j)%nat then g_data g' else g_data g)
    (if is_vlsd g && (3 <=? j)%nat then g_inval g' else g_inval g) (g_name g) (g_si g) (g_md g) (g_cns g).

Lemma patch_ext : forall {T P} wr (pl : T -> file -> P) x x' u u', (forall z, u z = u' z) -> patch wr pl x x' u ->
  patch wr pl x x' u'.
Proof. intros T P wr pl x x' u u' E H f f1 p NE W. cbv zeta. rewrite <- E. apply H; auto. Qed.

Lemma puts_nil : forall f, puts f [] = f.
Proof. reflexivity. Qed.

Lemma patch_cg_cut : forall j g g', same_cg g g' ->
  patch write_cg no_place g (mix_cg j g g') (fun '(p, _) => firstn j (cg_writes p g')).
Proof.
  intros j g g' [EG ED] f f1 p NE E. cbv zeta. cbn [fst].
  assert (EF : g_flags g' = g_flags g) by (rewrite EG; reflexivity).
  assert (EH : cg_head g' = cg_head g) by (unfold cg_head; rewrite EF; reflexivity).
  assert (EV : is_vlsd g' = is_vlsd g) by (unfold is_vlsd; rewrite EF; reflexivity).
  clear EG.
  unfold write_cg in *. unfold mix_cg. cbn [g_record g_samples g_flags g_separator g_data g_inval g_name g_si g_md g_cns].
  pose proof (proj1 (chain_keeps write_cn (g_cns g) ltac:(apply Forall_forall; intros; apply keeps_cn)) f NE) as [G1 _].
  destruct (write_chain write_cn None (g_cns g) f) as [[a1 l1]| |]; try discriminate. cbn [bind] in *.
  specialize (G1 a1 l1 eq_refl).
  pose proof (keeps_tx (g_name g) a1 ltac:(lia)) as [G2 _].
  destruct (write_tx (g_name g) a1) as [[a2 l2]| |]; try discriminate. cbn [bind] in *. specialize (G2 a2 l2 eq_refl).
  pose proof (keeps_si_opt (g_si g) a2 ltac:(lia)) as [G3 _].
  destruct (write_si_opt (g_si g) a2) as [[a3 l3]| |]; try discriminate. cbn [bind] in *. specialize (G3 a3 l3 eq_refl).
  pose proof (keeps_md (g_md g) a3 ltac:(lia)) as [G4 _].
  destruct (write_md (g_md g) a3) as [[a4 l4]| |]; try discriminate. cbn [bind] in *. specialize (G4 a4 l4 eq_refl).
  rewrite write_block4_spec in E by lia. rewrite write_block4_spec by lia. cbn [bind b_pos] in *.
  apply ok_pair in E. destruct E as [<- <-].
  set (links := [0; l1; l2; l3; 0; l4] ++ (if has (g_flags g) fRemote then [0] else [])).
  assert (LL : (24 + 8 * length links = cg_head g)%nat).
  { unfold links, cg_head. destruct (has (g_flags g) fRemote); reflexivity. }
  set (pos := (length a4 + pad8 (length a4))%nat).
  set (B1 := le_bytes 8 (g_record g)). set (B3 := le_bytes 2 (g_flags g) ++ le_bytes 2 (g_separator g) ++ le_bytes 4 0).
  assert (FB : forall s x y, fields_bytes [(8%nat, g_record g); (8%nat, s); (2%nat, g_flags g); (2%nat, g_separator g); (4%nat, 0); (4%nat, x); (4%nat, y)]
     = B1 ++ le_bytes 8 s ++ B3 ++ le_bytes 4 x ++ le_bytes 4 y).
  { intros s x y. unfold fields_bytes, B1, B3. cbn [map concat]. rewrite <- !app_assoc, app_nil_r. reflexivity. }
  rewrite !FB. clear FB.
  assert (LB1 : length B1 = 8%nat) by apply le_bytes_length.
  assert (LB3 : length B3 = 8%nat) by (unfold B3; rewrite !app_length, !le_bytes_length; reflexivity).
  assert (LS : forall s, length (le_bytes 8 s) = 8%nat) by (intros; apply le_bytes_length).
  assert (L4 : forall s, length (le_bytes 4 s) = 4%nat) by (intros; apply le_bytes_length).
  assert (SZ : forall s x y, N.of_nat (24 + 8 * length links + length (B1 ++ le_bytes 8 s ++ B3 ++ le_bytes 4 x ++ le_bytes 4 y))
     = N.of_nat (cg_head g + 32)).
  { intros s x y. rewrite !app_length, LB1, LB3, LS, !L4. f_equal. lia. }
  rewrite !SZ. clear SZ. set (size := N.of_nat (cg_head g + 32)). clearbody size.
  set (A := a4 ++ repeat 0 (pad8 (length a4)) ++ header_bytes ty_cg size links).
  assert (LA : length A = (pos + cg_head g)%nat).
  { unfold A, pos. rewrite !app_length, repeat_length, header_bytes_length. lia. }
  assert (RA : forall z, a4 ++ repeat 0 (pad8 (length a4)) ++ header_bytes ty_cg size links ++ z = A ++ z).
  { intros z. unfold A. rewrite <- !app_assoc. reflexivity. }
  rewrite !RA. clear RA. clearbody A. assert (PG : (length f <= pos)%nat) by (unfold pos; lia). clearbody pos.
  clear G1 G2 G3 G4. unfold cg_writes. rewrite EH, EV.
  assert (HG : (72 <= cg_head g)%nat) by (rewrite <- LL; unfold links; cbn [app length]; lia).
  assert (LT : forall s x y, length (A ++ B1 ++ le_bytes 8 s ++ B3 ++ le_bytes 4 x ++ le_bytes 4 y) = (pos + cg_head g + 32)%nat).
  { intros s x y. rewrite !app_length, LA, LB1, LB3, LS, !L4. lia. }
  assert (P1 : forall s s' x y, put (A ++ B1 ++ le_bytes 8 s ++ B3 ++ le_bytes 4 x ++ le_bytes 4 y)
      (pos + cg_head g + 8) (le_bytes 8 s') = A ++ B1 ++ le_bytes 8 s' ++ B3 ++ le_bytes 4 x ++ le_bytes 4 y).
  { intros s s' x y. rewrite (app_assoc A B1). replace (pos + cg_head g + 8)%nat with (length (A ++ B1)) by (rewrite app_length; lia).
    rewrite put_mid by (rewrite !LS; reflexivity). rewrite <- !app_assoc. reflexivity. }
  assert (P2 : forall s x x' y, put (A ++ B1 ++ le_bytes 8 s ++ B3 ++ le_bytes 4 x ++ le_bytes 4 y)
      (pos + cg_head g + 24) (le_bytes 4 x') = A ++ B1 ++ le_bytes 8 s ++ B3 ++ le_bytes 4 x' ++ le_bytes 4 y).
  { intros s x x' y.
    replace (A ++ B1 ++ le_bytes 8 s ++ B3 ++ le_bytes 4 x ++ le_bytes 4 y)
      with ((A ++ B1 ++ le_bytes 8 s ++ B3) ++ le_bytes 4 x ++ le_bytes 4 y) by (rewrite <- !app_assoc; reflexivity).
    replace (pos + cg_head g + 24)%nat with (length (A ++ B1 ++ le_bytes 8 s ++ B3)) by (rewrite !app_length, LS; lia).
    rewrite put_mid by (rewrite !L4; reflexivity). rewrite <- !app_assoc. reflexivity. }
  assert (P3 : forall s x y y', put (A ++ B1 ++ le_bytes 8 s ++ B3 ++ le_bytes 4 x ++ le_bytes 4 y)
      (pos + cg_head g + 28) (le_bytes 4 y') = A ++ B1 ++ le_bytes 8 s ++ B3 ++ le_bytes 4 x ++ le_bytes 4 y').
  { intros s x y y'.
    replace (A ++ B1 ++ le_bytes 8 s ++ B3 ++ le_bytes 4 x ++ le_bytes 4 y)
      with ((A ++ B1 ++ le_bytes 8 s ++ B3 ++ le_bytes 4 x) ++ le_bytes 4 y ++ []) by (rewrite <- !app_assoc, app_nil_r; reflexivity).
    replace (pos + cg_head g + 28)%nat with (length (A ++ B1 ++ le_bytes 8 s ++ B3 ++ le_bytes 4 x)) by (rewrite !app_length, LS, L4; lia).
    rewrite put_mid by (rewrite !L4; reflexivity). rewrite <- !app_assoc, app_nil_r. reflexivity. }
  destruct (is_vlsd g); cbn [andb].
  - destruct j as [|[|[|j]]]; cbn [firstn Nat.leb]; rewrite ?firstn_nil, ?puts_cons, ?puts_nil, ?P1, ?P2, ?P3; (split; [reflexivity|]);
    unfold within, apart; rewrite LT;
    (split; [repeat apply Forall_cons; try apply Forall_nil; cbn [fst snd]; rewrite ?LS, ?L4; lia|]);
    (split; [repeat apply Forall_cons; try apply Forall_nil; cbn [fst snd]; lia|]);
    (split; [repeat apply Forall_cons; try apply Forall_nil; cbn [fst snd]; right; lia|reflexivity]).
  - destruct j as [|j]; cbn [firstn Nat.leb]; rewrite ?firstn_nil, ?puts_cons, ?puts_nil, ?P1; (split; [reflexivity|]);
    unfold within, apart; rewrite LT;
    (split; [repeat apply Forall_cons; try apply Forall_nil; cbn [fst snd]; rewrite ?LS, ?L4; lia|]);
    (split; [repeat apply Forall_cons; try apply Forall_nil; cbn [fst snd]; lia|]);
    (split; [repeat apply Forall_cons; try apply Forall_nil; cbn [fst snd]; right; lia|reflexivity]).
Qed.

Lemma cg_writes_length : forall p g, length (cg_writes p g) = if is_vlsd g then 3%nat else 1%nat.
Proof. intros p g. unfold cg_writes. destruct (is_vlsd g); reflexivity. Qed.

Lemma mix_full : forall j g g', same_cg g g' -> (3 <= j)%nat -> mix_cg j g g' = g'.
Proof.
  intros j g g' [E D] L. etransitivity; [|symmetry; exact E]. unfold mix_cg.
  replace (1 <=? j)%nat with true by (symmetry; apply Nat.leb_le; lia).
  replace (2 <=? j)%nat with true by (symmetry; apply Nat.leb_le; lia).
  replace (3 <=? j)%nat with true by (symmetry; apply Nat.leb_le; lia).
  destruct (is_vlsd g); cbn [andb]; [reflexivity|]. destruct (D eq_refl) as [-> ->]. reflexivity.
Qed.

Lemma patch_cg : forall g g', same_cg g g' -> patch write_cg no_place g g' (fun '(p, _) => cg_writes p g').
Proof.
  intros g g' H. pose proof (patch_cg_cut 3 g g' H) as P. rewrite mix_full in P by auto.
  revert P. apply patch_ext. intros [p u]. apply firstn_all2. rewrite cg_writes_length. destruct (is_vlsd g'); lia.
Qed.
