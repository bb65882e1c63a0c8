(** The file during a measurement. *)
From Verif Require Import Base BlockModel BlockSpec BlockProofs BlockProofs2 BlockProofs3 BlockProofs4
  MetaModel MetaSpec MetaProofs MetaProofs3 DataModel IdentModel IdentSpec IdentProofs QueueModel
  MeasModel MeasSpec MeasProofs MeasProofs2 MeasProofs3.
Local Open Scope N_scope.

(* ------------------------------------------------------------------ *)
(** ** One element of a list *)

Definition at_k {P} (k n : nat) (u : nat * P -> writes_l) : list (nat * P -> writes_l) :=
  upd_nth k (fun _ => u) (repeat (fun _ => []) n).

Lemma upd_cons : forall {A} k (fn : A -> A) x l, upd_nth (S k) fn (x :: l) = x :: upd_nth k fn l.
Proof. reflexivity. Qed.

Lemma upd_length : forall {A} k (fn : A -> A) l, length (upd_nth k fn l) = length l.
Proof.
  induction k as [|k IH]; intros fn [|x l]; try reflexivity. rewrite upd_cons. cbn [length]. rewrite IH. reflexivity.
Qed.

Lemma upd_nth_error : forall {A} k (fn : A -> A) l i, nth_error (upd_nth k fn l) i =
  if (i =? k)%nat then option_map fn (nth_error l i) else nth_error l i.
Proof.
  induction k as [|k IH]; intros fn [|x l] [|i]; try reflexivity.
  - cbn. destruct (i =? k)%nat; reflexivity.
  - rewrite upd_cons. cbn [nth_error Nat.eqb]. apply IH.
Qed.

Lemma zip_nil : forall {P} n (pls : list (nat * P)), zip_writes (repeat (fun _ => []) n) pls = [].
Proof. intros P. induction n as [|n IH]; intros [|z pls]; try reflexivity. apply IH. Qed.

Lemma zip_at : forall {P} (u : nat * P -> writes_l) k n pls z, (k < n)%nat -> nth_error pls k = Some z ->
  zip_writes (at_k k n u) pls = u z.
Proof.
  intros P u. induction k as [|k IH]; intros [|n] pls z L E; try lia; destruct pls as [|y pls]; try discriminate.
  - inversion E; subst. unfold at_k. cbn [repeat]. unfold zip_writes. cbn [upd_nth firstn skipn app combine map concat].
    pose proof (zip_nil n pls) as Z. unfold zip_writes in Z. rewrite Z. apply app_nil_r.
  - unfold at_k. cbn [repeat]. rewrite upd_cons. unfold zip_writes. cbn [combine map concat app]. apply (IH n pls z); [lia|exact E].
Qed.

Lemma patches_same : forall {T P} wr (pl : T -> file -> P) xs, patches wr pl xs xs (repeat (fun _ => []) (length xs)).
Proof. induction xs; cbn [length repeat]; constructor; auto. apply patch_same. Qed.

Lemma patches_at : forall {T P} wr (pl : T -> file -> P) u fn k xs x, nth_error xs k = Some x ->
  patch wr pl x (fn x) u -> patches wr pl xs (upd_nth k fn xs) (at_k k (length xs) u).
Proof.
  intros T P wr pl u fn. induction k as [|k IH]; intros [|y xs] x E H; try discriminate.
  - inversion E; subst. unfold at_k. cbn [length repeat upd_nth firstn skipn app]. constructor; [exact H|apply patches_same].
  - unfold at_k. cbn [length repeat]. rewrite !upd_cons. constructor; [apply patch_same|]. apply (IH xs x); auto.
Qed.

Lemma places_length : forall {T P} wr (pl : T -> file -> P) xs prev f f' a, write_chain wr prev xs f = Ok (f', a) ->
  length (chain_places wr pl prev xs f) = length xs.
Proof.
  intros T P wr pl. induction xs as [|x r IH]; intros prev f f' a E; [reflexivity|]. cbn [write_chain chain_places] in *.
  destruct (wr x f) as [[f1 pos]| |]; try discriminate. cbn [bind] in E. cbn [length]. f_equal.
  match type of E with bind ?y _ = _ => destruct y as [[f2 z]| |] eqn:E2; try discriminate end.
  apply (IH _ _ _ _ E2).
Qed.

Lemma hd_places_length : forall h f f1 b, write_hd h f = Ok (f1, b) -> length (hd_places h f) = length (h_dgs h).
Proof.
  intros h f f1 b E. unfold write_hd, hd_places in *.
  destruct (write_hd_head h f) as [[a1 b1]| |]; try discriminate. cbn [bind] in E.
  destruct (write_chain write_dg None (h_dgs h) a1) as [[a2 l]| |] eqn:E2; try discriminate.
  apply (places_length _ _ _ _ _ _ _ E2).
Qed.

(* ------------------------------------------------------------------ *)
(** ** Counters *)

Lemma vlsd_bit : forall g, is_vlsd g = N.testbit (g_flags g) 0.
Proof.
  intros g. unfold is_vlsd, has, fVlsd. rewrite N.land_comm.
  destruct (g_flags g) as [|[p|p|]]; reflexivity.
Qed.

Lemma count_same : forall e g, same_cg g (count_cg e g).
Proof.
  intros e g. split; [reflexivity|]. unfold count_cg. cbn [g_data g_inval]. intros ->. auto.
Qed.

Lemma same_refl : forall g, same_cg g g.
Proof. intros [? ? ? ? ? ? ? ? ? ?]. split; [reflexivity|auto]. Qed.

Lemma counted_some : forall e g, counted (Some e) g = count_cg e g.
Proof. intros e g. unfold counted, count_cg. rewrite <- vlsd_bit. reflexivity. Qed.

Lemma count_again : forall c e g, count_cg e (counted c g) = counted (Some e) g.
Proof.
  intros [c|] e g; rewrite !counted_some; [|reflexivity]. unfold count_cg, is_vlsd.
  cbn [g_record g_samples g_flags g_separator g_data g_inval g_name g_si g_md g_cns].
  destruct (has (g_flags g) fVlsd); reflexivity.
Qed.

(* ------------------------------------------------------------------ *)
(** ** The invariant *)

Lemma holds_swap : forall A A' T p bs, length A = length A' -> (length A <= p)%nat -> holds (A ++ T) p bs ->
  holds (A' ++ T) p bs.
Proof.
  intros A A' T p bs L G [H1 H2]. split; [rewrite app_length in *; lia|]. intros i Hi. rewrite <- H2 by auto.
  rewrite !nth_error_app2 by lia. f_equal. lia.
Qed.


Definition dt_bytes (payload : list N) : list N :=
  header_bytes ty_dt (N.of_nat (24 + length payload)) [] ++ payload.

Lemma dt_bytes_length : forall p, length (dt_bytes p) = (24 + length p)%nat.
Proof. intros. unfold dt_bytes. rewrite app_length, header_bytes_length. cbn [length]. lia. Qed.

Definition link_of (dts : list (nat * blk)) (k : nat) (d : dg) : N :=
  match find_dt k dts with Some b => N.of_nat (b_pos b) | None => d_link d end.

Definition dg_is (c : option enc) (l : N) (d : dg) : dg :=
  mkDg (d_idsize d) (d_md d) l (map (counted c) (d_cgs d)).

(** [hk] is what the file holds; [src] are the data groups with data, [cur] the last one saved,
    [pay] the data and [cn] the counters; [tm] the times in memory and in the file. *)
Record inv (i : idb) (h : hd) (src : list nat) (cur : option nat) (pay : nat -> list N) (cn : nat -> option enc)
  (tm : stamp4 * stamp4) (m : meas) (hk : hd) (W T : file) (b : blk) : Prop := {
  iv_write : write_file i hk [] = Ok (W, b);
  iv_ne : (64 <= length W)%nat;
  iv_file : m_file m = W ++ T;
  iv_pos : m_head m = b_pos b;
  iv_places : m_places m = hd_places hk (write_id false i []);
  iv_times : tm = (h_time (m_hd m), h_time hk);
  iv_mem : m_hd m = set_time (fst tm) hk;
  iv_hk : hk = set_dgs (set_time (snd tm) h) (h_dgs hk);
  iv_len : length (h_dgs hk) = length (h_dgs h);
  iv_dgs : forall k d, nth_error (h_dgs h) k = Some d ->
    nth_error (h_dgs hk) k = Some (dg_is (cn k) (link_of (m_dts m) k d) d);
  iv_none : forall k, ~ In k src -> find_dt k (m_dts m) = None;
  iv_dt : forall k, In k src -> exists bk, find_dt k (m_dts m) = Some bk /\
    b_type bk = ty_dt /\ b_links bk = [] /\ b_len bk = N.of_nat (24 + length (pay k)) /\
    (length W <= b_pos bk)%nat /\ holds (m_file m) (b_pos bk) (dt_bytes (pay k));
  iv_cur : forall c bc, cur = Some c -> find_dt c (m_dts m) = Some bc ->
    (b_pos bc + 24 + length (pay c))%nat = length (m_file m) /\
    forall k bk, In k src -> k <> c -> find_dt k (m_dts m) = Some bk ->
      (b_pos bk + 24 + length (pay k) <= b_pos bc)%nat
}.

Lemma file_patch : forall i hk W b ds' us, write_file i hk [] = Ok (W, b) ->
  patches write_dg dg_places (h_dgs hk) ds' us ->
  let ws := zip_writes us (hd_places hk (write_id false i [])) in
  write_file i (set_dgs hk ds') [] = Ok (puts W ws, b) /\ within (length W) ws /\
  hd_places (set_dgs hk ds') (write_id false i []) = hd_places hk (write_id false i []).
Proof.
  intros i hk W b ds' us E P ws. unfold write_file in *.
  destruct (hd_patch_dgs hk ds' us (write_id false i []) W b) as (A & B & _ & C); auto.
  rewrite write_id_new, id_bytes_length. lia.
Qed.

Lemma set_dgs_dgs : forall h ds, h_dgs (set_dgs h ds) = ds.
Proof. reflexivity. Qed.
Lemma set_dgs_twice : forall h a c, set_dgs (set_dgs h a) c = set_dgs h c.
Proof. reflexivity. Qed.
Lemma set_time_dgs : forall t h ds, set_time t (set_dgs h ds) = set_dgs (set_time t h) ds.
Proof. reflexivity. Qed.

Lemma find_dt_cons : forall k j b l, find_dt k ((j, b) :: l) = if (j =? k)%nat then Some b else find_dt k l.
Proof. reflexivity. Qed.

Lemma get_dt_inv : forall i h src cur pay cn tm m hk W T b k d0 p cgs,
  inv i h src cur pay cn tm m hk W T b -> nth_error (h_dgs h) k = Some d0 ->
  (In k src -> cur = Some k) -> (~ In k src -> d_link d0 = 0 /\ pay k = []) ->
  nth_error (m_places m) k = Some (p, cgs) ->
  exists m1 b1 hk1 W1 T1,
    get_dt k p (dg_is (cn k) (link_of (m_dts m) k d0) d0) m = Ok (m1, b1) /\ find_dt k (m_dts m1) = Some b1 /\
    inv i h (k :: src) (Some k) pay cn tm m1 hk1 W1 T1 b /\ m_places m1 = m_places m.
Proof.
  intros i h src cur pay cn tm m hk W T b k d0 p cgs I E0 IC IN EP.
  destruct (in_dec Nat.eq_dec k src) as [K|K].
  - destruct (iv_dt _ _ _ _ _ _ _ _ _ _ _ _ I k K) as (bk & F & _). specialize (IC K). subst cur.
    exists m, bk, hk, W, T. unfold get_dt. rewrite F. split; [reflexivity|]. split; [reflexivity|]. split; [|reflexivity].
    destruct I. constructor; auto.
    + intros j NJ. apply iv_none0. intros H. apply NJ. right. auto.
    + intros j [<-|J]; auto.
    + intros c bc EC FC. destruct (iv_cur0 c bc EC FC) as [A B]. split; [exact A|]. intros j bj [<-|J] NJ FJ.
      * inversion EC; subst. congruence.
      * eauto.
  - destruct (IN K) as [L0 P0]. pose proof (iv_none _ _ _ _ _ _ _ _ _ _ _ _ I k K) as F.
    unfold get_dt. rewrite F. unfold link_of. rewrite F. cbn [d_link dg_is]. rewrite L0. cbn [N.eqb].
    destruct I as [Iw Ie If Ip Ipl It Im Ih Il Id In0 Idt Ic].
    assert (LF : (length W <= length (m_file m))%nat) by (rewrite If, app_length; lia).
    rewrite write_block4_spec by lia. cbn [bind b_pos length].
    set (pos := (length (m_file m) + pad8 (length (m_file m)))%nat).
    set (l := N.of_nat pos). set (hb := header_bytes ty_dt _ []).
    assert (E1 : nth_error (h_dgs hk) k = Some (dg_is (cn k) 0 d0)).
    { rewrite (Id k d0 E0). unfold link_of. rewrite F, L0. reflexivity. }
    assert (P1 : patches write_dg dg_places (h_dgs hk) (upd_nth k (set_link l) (h_dgs hk))
              (at_k k (length (h_dgs hk)) (fun '(p, _) => [(p + 24 + 8 * 2, le_bytes 8 l)]%nat))).
    { apply (patches_at _ _ _ (set_link l) k _ _ E1). apply patch_dg_link. }
    destruct (file_patch _ _ _ _ _ _ Iw P1) as (A & B & C).
    assert (EZ : zip_writes (at_k k (length (h_dgs hk)) (fun '(p, _) => [(p + 24 + 8 * 2, le_bytes 8 l)]%nat))
              (hd_places hk (write_id false i [])) = [(p + 24 + 8 * 2, le_bytes 8 l)]%nat).
    { rewrite <- Ipl. rewrite (zip_at _ k _ _ (p, cgs)); [reflexivity| |exact EP].
      apply nth_error_Some. rewrite E1. discriminate. }
    rewrite EZ in A, B. set (ws := [(p + 24 + 8 * 2, le_bytes 8 l)]%nat) in *.
    set (tail := T ++ repeat 0 (pad8 (length (m_file m))) ++ hb).
    assert (EF : put (m_file m ++ repeat 0 (pad8 (length (m_file m))) ++ hb ++ []) (p + 24 + 8 * 2) (le_bytes 8 l) = puts W ws ++ tail).
    { rewrite <- puts_ext by exact B. unfold ws. rewrite puts_cons. unfold puts. cbn [fold_left]. f_equal.
      rewrite app_nil_r. unfold tail. rewrite (app_assoc W T), <- If. reflexivity. }
    rewrite EF.
    assert (LW : length (puts W ws) = length W) by (apply puts_length; exact B).
    assert (LT : length (puts W ws ++ tail) = (pos + 24)%nat).
    { rewrite app_length, LW. unfold tail. rewrite !app_length, repeat_length. unfold hb. rewrite header_bytes_length.
      unfold pos. rewrite If, app_length. cbn [length]. lia. }
    eexists _, _, (set_dgs hk (upd_nth k (set_link l) (h_dgs hk))), (puts W ws), tail.
    split; [reflexivity|]. cbn [m_dts m_places]. split; [rewrite find_dt_cons, Nat.eqb_refl; reflexivity|].
    split; [|reflexivity].
    assert (KEEP : forall q bs, (length W <= q)%nat -> holds (m_file m) q bs -> holds (puts W ws ++ tail) q bs).
    { intros q bs LQ H. unfold tail. rewrite app_assoc. apply holds_ext. rewrite If in H. revert H. apply holds_swap; auto. }
    constructor; cbn [m_file m_hd m_head m_places m_dts].
    + exact A.
    + rewrite LW. exact Ie.
    + reflexivity.
    + exact Ip.
    + rewrite C. exact Ipl.
    + exact It.
    + rewrite Im. reflexivity.
    + rewrite Ih at 1. reflexivity.
    + rewrite set_dgs_dgs, upd_length. exact Il.
    + intros j d Ej. rewrite set_dgs_dgs, upd_nth_error, (Id j d Ej). unfold link_of. rewrite find_dt_cons.
      rewrite (Nat.eqb_sym j k). destruct (Nat.eqb_spec k j) as [<-|NJ]; [|reflexivity]. reflexivity.
    + intros j NJ. rewrite find_dt_cons. replace (k =? j)%nat with false.
      * apply In0. intros H. apply NJ. right. exact H.
      * symmetry. apply Nat.eqb_neq. intros ->. apply NJ. left. reflexivity.
    + intros j J. rewrite find_dt_cons. destruct (Nat.eqb_spec k j) as [<-|NJ].
      * eexists. split; [reflexivity|]. cbn [b_type b_links b_len b_pos]. rewrite P0, LW. cbn [length].
        split; [reflexivity|]. split; [reflexivity|]. split; [reflexivity|]. split; [unfold pos; lia|].
        unfold dt_bytes. cbn [length]. rewrite app_nil_r. unfold tail.
        replace (header_bytes ty_dt (N.of_nat (24 + 0)) []) with hb by reflexivity.
        pose proof (holds_end (puts W ws ++ T ++ repeat 0 (pad8 (length (m_file m)))) hb []) as H.
        rewrite app_nil_r, <- !app_assoc in H.
        replace (length (puts W ws ++ T ++ repeat 0 (pad8 (length (m_file m))))) with pos in H; [exact H|].
        rewrite !app_length, repeat_length, LW. unfold pos. rewrite If, app_length. lia.
      * destruct J as [J|J]; [congruence|]. destruct (Idt j J) as (bj & F1 & F2 & F3 & F4 & F5 & F6).
        exists bj. rewrite LW. repeat (split; [assumption|]). apply KEEP; auto.
    + intros c bc EC FC. inversion EC; subst c. rewrite find_dt_cons, Nat.eqb_refl in FC. inversion FC; subst bc. clear FC EC.
      cbn [b_pos]. rewrite P0, LT. cbn [length]. split; [lia|]. intros j bj [<-|J] NJ FJ; [congruence|].
      rewrite find_dt_cons in FJ. replace (k =? j)%nat with false in FJ by (symmetry; apply Nat.eqb_neq; congruence).
      destruct (Idt j J) as (bj' & F1 & F2 & F3 & F4 & F5 & [F6 _]). rewrite FJ in F1. inversion F1; subst bj'.
      rewrite dt_bytes_length in F6. unfold pos. lia.
Qed.

Lemma prefix_frame : forall W T f' pos n, same_outside (W ++ T) f' pos n -> (length W <= pos)%nat ->
  exists T', f' = W ++ T'.
Proof.
  intros W T f' pos n [L H] G. exists (skipn (length W) f'). rewrite <- (firstn_skipn (length W) f') at 1. f_equal.
  rewrite app_length in L. apply nth_error_ext_N; [rewrite firstn_length; lia|]. intros q Q.
  rewrite firstn_length in Q. rewrite nth_error_firstn' by lia. rewrite H by lia. apply nth_error_app1. lia.
Qed.

Definition set_at {A} (f : nat -> A) (k : nat) (v : A) : nat -> A := fun j => if (j =? k)%nat then v else f j.

Lemma dg_is_again : forall c l e d, count_dg e (dg_is c l d) = dg_is (Some e) l d.
Proof.
  intros c l e d. unfold count_dg, dg_is. cbn [d_idsize d_md d_link d_cgs]. f_equal. rewrite map_map.
  apply map_ext. intros g. apply count_again.
Qed.

Lemma Forall2_map_r : forall {A B} (R : A -> B -> Prop) (f : A -> B) l, (forall x, R x (f x)) -> Forall2 R l (map f l).
Proof. induction l; intros H; cbn [map]; constructor; auto. Qed.

Lemma some_eq : forall {A} (x y : A), Some x = Some y -> x = y.
Proof. congruence. Qed.

Lemma save_inv : forall i h src cur pay cn tm m hk W T b k d0 bytes e,
  inv i h src cur pay cn tm m hk W T b -> nth_error (h_dgs h) k = Some d0 ->
  (In k src -> cur = Some k) -> (~ In k src -> d_link d0 = 0 /\ pay k = []) ->
  exists m' hk' W' T', save_group k bytes e m = Ok m' /\
    inv i h (k :: src) (Some k) (set_at pay k (pay k ++ bytes)) (set_at cn k (Some e)) tm m' hk' W' T' b.
Proof.
  intros i h src cur pay cn tm m hk W T b k d0 bytes e I E0 IC IN.
  pose proof (iv_dgs _ _ _ _ _ _ _ _ _ _ _ _ I k d0 E0) as E1.
  assert (LK : (k < length (m_places m))%nat).
  { rewrite (iv_places _ _ _ _ _ _ _ _ _ _ _ _ I). pose proof (iv_write _ _ _ _ _ _ _ _ _ _ _ _ I) as Iw.
    unfold write_file in Iw. rewrite (hd_places_length _ _ _ _ Iw). apply nth_error_Some. rewrite E1. discriminate. }
  apply nth_error_Some in LK. destruct (nth_error (m_places m) k) as [[p cgs]|] eqn:EP; [|congruence]. clear LK.
  unfold save_group. rewrite EP. rewrite (iv_mem _ _ _ _ _ _ _ _ _ _ _ _ I).
  replace (h_dgs (set_time (fst tm) hk)) with (h_dgs hk) by reflexivity. rewrite E1.
  destruct (get_dt_inv _ _ _ _ _ _ _ _ _ _ _ _ k d0 p cgs I E0 IC IN EP) as (m1 & b1 & hk1 & W1 & T1 & EG & F & I1 & PL).
  rewrite EG. cbn [bind]. clear I IC IN EG E1. rewrite <- PL in EP.
  rewrite dg_is_again. generalize (link_of (m_dts m) k d0). intros l0. clear PL hk W T m.
  destruct I1 as [Iw Ie If Ip Ipl It Im Ih Il Id In0 Idt Ic].
  pose proof (Id k d0 E0) as E1.
  set (d1 := dg_is (cn k) (link_of (m_dts m1) k d0) d0) in *.
  set (gs' := map (counted (Some e)) (d_cgs d0)).
  set (d2 := mkDg (d_idsize d1) (d_md d1) (d_link d1) gs').
  assert (CE : count_dg e d1 = d2).
  { unfold d1. rewrite dg_is_again. reflexivity. }
  assert (SC : Forall2 same_cg (d_cgs d1) gs').
  { replace gs' with (map (count_cg e) (d_cgs d1)).
    - apply Forall2_map_r. intros g. apply count_same.
    - unfold d1, gs'. cbn [dg_is d_cgs]. rewrite map_map. apply map_ext. intros g. apply count_again. }
  assert (P1 : patches write_dg dg_places (h_dgs hk1) (upd_nth k (count_dg e) (h_dgs hk1))
            (at_k k (length (h_dgs hk1)) (fun '(_, cgs) => dg_writes cgs d2))).
  { apply (patches_at _ _ _ (count_dg e) k _ _ E1). rewrite CE. apply patch_dg_counts. exact SC. }
  destruct (file_patch _ _ _ _ _ _ Iw P1) as (A & B & C). clear P1.
  assert (EZ : zip_writes (at_k k (length (h_dgs hk1)) (fun '(_, cgs) => dg_writes cgs d2))
            (hd_places hk1 (write_id false i [])) = dg_writes cgs d2).
  { rewrite <- Ipl. rewrite (zip_at _ k _ _ (p, cgs)); [reflexivity| |exact EP].
    apply nth_error_Some. rewrite E1. discriminate. }
  rewrite EZ in A, B. clear EZ.
  replace (dg_writes cgs (dg_is (Some e) l0 d0)) with (dg_writes cgs d2) by reflexivity.
  set (ws := dg_writes cgs d2) in *. clearbody ws. clear SC.
  assert (EF : puts (m_file m1 ++ bytes) ws = puts W1 ws ++ (T1 ++ bytes)).
  { rewrite If, <- app_assoc. apply puts_ext. exact B. }
  rewrite EF.
  assert (LW : length (puts W1 ws) = length W1) by (apply puts_length; exact B).
  destruct (Idt k (or_introl eq_refl)) as (bk & Fk & Tk & Lk & Sk & Wk & Hk).
  rewrite F in Fk. inversion Fk; subst bk. clear Fk.
  destruct (Ic k b1 eq_refl F) as [Ek Ok'].
  assert (KEEP : forall q bs, (length W1 <= q)%nat -> holds (m_file m1) q bs -> holds (puts W1 ws ++ T1 ++ bytes) q bs).
  { intros q bs LQ H. rewrite app_assoc. apply holds_ext. rewrite If in H. revert H. apply holds_swap; auto. }
  assert (SZ : N.of_nat (length (m_file m1 ++ bytes) - b_pos b1) = N.of_nat (24 + length (pay k ++ bytes))).
  { rewrite !app_length. lia. }
  rewrite SZ. clear SZ.
  pose proof (KEEP _ _ Wk Hk) as H1. unfold dt_bytes in H1. apply holds_app in H1 as [H1 H2]. rewrite header_bytes_length in H2. cbn [length] in H2.
  destruct (update_size4_spec b1 (N.of_nat (24 + length (pay k ++ bytes))) (puts W1 ws ++ T1 ++ bytes)) as (f' & EU & SO & HH).
  { lia. } { rewrite Tk, Lk, Sk. exact H1. }
  rewrite EU. cbn [bind]. clear EU.
  destruct (prefix_frame _ _ _ _ _ SO ltac:(lia)) as [T' EF'].
  assert (LF' : length f' = (length (m_file m1) + length bytes)%nat).
  { destruct SO as [SO _]. rewrite SO. rewrite If, !app_length. lia. }
  assert (HB : holds f' (b_pos b1 + 24 + length (pay k)) bytes).
  { refine (holds_frame _ _ _ _ _ _ SO _ _); [|lia].
    pose proof (holds_end (puts W1 ws ++ T1) bytes []) as Q. rewrite app_nil_r, <- app_assoc in Q.
    replace (length (puts W1 ws ++ T1)) with (b_pos b1 + 24 + length (pay k))%nat in Q; [exact Q|].
    rewrite Ek, If, !app_length. lia. }
  assert (HP : holds f' (b_pos b1 + 24) (pay k)).
  { refine (holds_frame _ _ _ _ _ _ SO _ _); [|lia]. replace (b_pos b1 + 24)%nat with (b_pos b1 + (24 + 8 * 0))%nat by lia. exact H2. }
  eexists _, (set_dgs hk1 (upd_nth k (count_dg e) (h_dgs hk1))), (puts W1 ws), T'. split; [reflexivity|].
  constructor; cbn [m_file m_hd m_head m_places m_dts].
  - exact A.
  - rewrite LW. exact Ie.
  - exact EF'.
  - exact Ip.
  - rewrite C. exact Ipl.
  - exact It.
  - rewrite Im. reflexivity.
  - rewrite Ih at 1. reflexivity.
  - rewrite set_dgs_dgs, upd_length. exact Il.
  - intros j d Ej. rewrite set_dgs_dgs, upd_nth_error, (Id j d Ej). unfold link_of, set_at. rewrite find_dt_cons.
    rewrite (Nat.eqb_sym j k). destruct (Nat.eqb_spec k j) as [<-|NJ]; [|reflexivity]. rewrite F. cbn [option_map b_pos].
    rewrite dg_is_again. reflexivity.
  - intros j NJ. rewrite find_dt_cons. replace (k =? j)%nat with false.
    + apply In0. exact NJ.
    + symmetry. apply Nat.eqb_neq. intros ->. apply NJ. left. reflexivity.
  - intros j J. rewrite find_dt_cons. unfold set_at. rewrite (Nat.eqb_sym j k). destruct (Nat.eqb_spec k j) as [<-|NJ].
    + eexists. split; [reflexivity|]. cbn [b_type b_links b_len b_pos]. rewrite LW.
      split; [exact Tk|]. split; [exact Lk|]. split; [reflexivity|]. split; [lia|].
      unfold dt_bytes. apply holds_app. split; [rewrite Tk, Lk in HH; exact HH|]. rewrite header_bytes_length. cbn [length].
      apply holds_app. replace (b_pos b1 + (24 + 8 * 0))%nat with (b_pos b1 + 24)%nat by lia. split; [exact HP|].
      exact HB.
    + destruct (Idt j J) as (bj & F1 & F2 & F3 & F4 & F5 & F6).
      exists bj. rewrite LW. repeat (split; [assumption|]). refine (holds_frame _ _ _ _ _ _ SO _ _); [apply KEEP; auto|].
      rewrite dt_bytes_length. left. destruct J as [J|J]; [congruence|].
      specialize (Ok' j bj (or_intror J) ltac:(congruence) F1). lia.
  - intros c bc EC FC. inversion EC; subst c. rewrite find_dt_cons, Nat.eqb_refl in FC. apply some_eq in FC. subst bc. clear EC.
    cbn [b_pos]. unfold set_at at 1. rewrite Nat.eqb_refl, app_length, LF'. split; [lia|]. intros j bj J NJ FJ.
    rewrite find_dt_cons in FJ. replace (k =? j)%nat with false in FJ by (symmetry; apply Nat.eqb_neq; congruence).
    unfold set_at. replace (j =? k)%nat with false by (symmetry; apply Nat.eqb_neq; congruence).
    apply (Ok' j bj J NJ FJ).
Qed.

(* ------------------------------------------------------------------ *)
(** ** The other calls *)

Lemma start_inv : forall i h src cur pay cn tm m hk W T b t, inv i h src cur pay cn tm m hk W T b ->
  inv i h src cur pay cn (t, snd tm) (mkM (m_file m) (set_time t (m_hd m)) (m_head m) (m_places m) (m_dts m)) hk W T b.
Proof.
  intros i h src cur pay cn tm m hk W T b t I. destruct I. constructor; cbn [m_file m_hd m_head m_places m_dts fst snd]; auto.
  - rewrite iv_times0. reflexivity.
  - rewrite iv_mem0. reflexivity.
Qed.

Lemma dg_same : forall d, mkDg (d_idsize d) (d_md d) (d_link d) (d_cgs d) = d.
Proof. intros []. reflexivity. Qed.

Lemma patches_all : forall ds, patches write_dg dg_places ds ds (map (fun d '(_, cgs) => dg_writes cgs d) ds).
Proof.
  induction ds as [|d ds IH]; cbn [map]; constructor; auto.
  pose proof (patch_dg_counts d (d_cgs d)) as P. cbv zeta in P. rewrite dg_same in P. apply P.
  clear. induction (d_cgs d); constructor; auto. apply same_refl.
Qed.

Lemma final_inv : forall i h src cur pay cn tm m hk W T b, inv i h src cur pay cn tm m hk W T b ->
  exists hk' W' T', inv i h src cur pay cn (fst tm, fst tm) (finalize m) hk' W' T' b.
Proof.
  intros i h src cur pay cn tm m hk W T b [Iw Ie If Ip Ipl It Im Ih Il Id In0 Idt Ic].
  set (h' := set_time (fst tm) hk). fold h' in Im.
  assert (SP : same_parts hk h') by (repeat split).
  assert (NE : (0 < length (write_id false i []))%nat) by (rewrite write_id_new, id_bytes_length; lia).
  unfold write_file in Iw. destruct (hd_patch_fields _ _ _ _ _ NE SP Iw) as (A & B & C & _).
  set (w0 := [(b_pos b + 72, fields_bytes (hd_fields h'))]%nat) in *.
  assert (L0 : length (puts W w0) = length W) by (apply puts_length; exact B).
  destruct (file_patch i h' (puts W w0) b _ _ A (patches_all (h_dgs h'))) as (A2 & B2 & C2).
  set (ws := zip_writes _ _) in *.
  assert (SE : set_dgs h' (h_dgs h') = h') by reflexivity. rewrite SE in *. clear SE.
  assert (EW : hd_writes (m_head m) (m_places m) (m_hd m) = w0 ++ ws).
  { unfold hd_writes, w0. cbn [app]. rewrite Ip, Im. f_equal. rewrite Ipl. unfold ws. rewrite C. unfold zip_writes.
    generalize (hd_places hk (write_id false i [])). generalize (h_dgs h'). clear. intros ds.
    induction ds as [|d ds IH]; intros [|[p cgs] pls]; cbn [combine map concat]; auto. rewrite IH. reflexivity. }
  assert (LW : length (puts (puts W w0) ws) = length W) by (rewrite puts_length; auto).
  assert (EF : m_file (finalize m) = puts (puts W w0) ws ++ T).
  { unfold finalize. cbn [m_file]. rewrite EW, If, puts_app. rewrite puts_ext by exact B. apply puts_ext. exact B2. }
  exists h', (puts (puts W w0) ws), T.
  constructor; unfold finalize; cbn [m_hd m_head m_places m_dts].
  - exact A2.
  - lia.
  - exact EF.
  - exact Ip.
  - rewrite C. exact Ipl.
  - rewrite Im. reflexivity.
  - exact Im.
  - cbn [fst snd]. unfold h'. rewrite Ih at 1. reflexivity.
  - exact Il.
  - exact Id.
  - exact In0.
  - intros j J. destruct (Idt j J) as (bj & F1 & F2 & F3 & F4 & F5 & F6).
    exists bj. rewrite LW. repeat (split; [assumption|]). fold (finalize m). rewrite EF. rewrite If in F6. revert F6. apply holds_swap; auto.
  - intros c bc EC FC. fold (finalize m). rewrite EF, app_length, LW, <- app_length, <- If. apply (Ic c bc EC FC).
Qed.
