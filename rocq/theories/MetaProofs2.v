(** Blocks with their links: sources, arrays, channels and groups are read back as written. *)
From Verif Require Import Base BlockModel BlockSpec BlockProofs BlockProofs2 BlockProofs3 BlockProofs4
  CcModel CcProofs MetaModel MetaSpec MetaProofs.
Local Open Scope N_scope.

(* ------------------------------------------------------------------ *)
(** ** Putting a block together *)

Lemma le8_nonempty : forall n, le_bytes 8 n <> [].
Proof. intros n X. apply (f_equal (@length N)) in X. rewrite le_bytes_length in X. discriminate. Qed.

Lemma header_first_link : forall f pos ty size m ls body,
  holds f pos (header_bytes ty size (m :: ls) ++ body) -> holds f (pos + 24) (le_bytes 8 m).
Proof.
  intros f pos ty size m ls body H. destruct (header_first ty size ls) as (a & b & E & LA).
  rewrite E in H. rewrite <- !app_assoc in H. apply holds_app in H as [_ H]. rewrite LA in H.
  apply holds_app in H as [H _]. exact H.
Qed.

Lemma wb : forall ty len m ls body f0 f, type_ok 4 ty -> grows f0 f -> (0 < length f0)%nat ->
  exists f' b, write_block4 ty len (m :: ls) body f = Ok (f', b) /\
    grows f f' /\ (length f <= b_pos b)%nat /\ (b_pos b + 32 <= length f')%nat /\
    holds f' (b_pos b + 24) (le_bytes 8 m) /\
    holds f' (b_pos b) (header_bytes ty (N.of_nat (32 + 8 * length ls + length body)) (m :: ls) ++ body) /\
    b = mkB (b_pos b) ty (N.of_nat (32 + 8 * length ls + length body)) (m :: ls) /\
    length f' = (b_pos b + (32 + 8 * length ls + length body))%nat /\
    (N.of_nat (length f') < 2 ^ 63 -> Forall u64 ls ->
     forall g n, same_but f' g (length f0) (length f') (b_pos b) -> u64 n ->
       holds g (b_pos b + 24) (le_bytes 8 n) ->
       read_header4 g (b_pos b) =
         Ok (mkB (b_pos b) ty (N.of_nat (32 + 8 * length ls + length body)) (n :: ls),
             (b_pos b + (32 + 8 * length ls))%nat) /\
       holds g (b_pos b + (32 + 8 * length ls)) body /\
       holds g (b_pos b) (header_bytes ty (N.of_nat (32 + 8 * length ls + length body)) (n :: ls)) /\
       same_in f g (length f0) (length f)).
Proof.
  intros ty len m ls body f0 f T G NE.
  pose proof (grows_length _ _ G) as LG.
  rewrite (write_block4_spec ty len (m :: ls) body f ltac:(lia)).
  eexists _, _. split; [reflexivity|]. cbn [b_pos].
  replace (24 + 8 * length (m :: ls) + length body)%nat with (32 + 8 * length ls + length body)%nat
    by (cbn [length]; lia).
  set (pos := (length f + pad8 (length f))%nat).
  set (size := N.of_nat (32 + 8 * length ls + length body)).
  set (blk := header_bytes ty size (m :: ls) ++ body).
  assert (LB : length blk = (32 + 8 * length ls + length body)%nat).
  { unfold blk. rewrite !app_length, header_bytes_length. cbn [length]. lia. }
  set (f' := f ++ repeat 0 (pad8 (length f)) ++ blk).
  assert (LF : length f' = (pos + length blk)%nat).
  { unfold f'. rewrite !app_length, repeat_length. unfold pos. lia. }
  assert (H : holds f' pos blk).
  { unfold f'. rewrite app_assoc. rewrite <- (app_nil_r blk) at 1.
    replace pos with (length (f ++ repeat 0 (pad8 (length f)))) by (rewrite app_length, repeat_length; auto).
    apply holds_end. }
  assert (GF : grows f f') by (eexists; reflexivity).
  split; [exact GF|]. split; [unfold pos; lia|]. split; [lia|].
  split; [apply header_first_link in H; exact H|]. split; [exact H|]. split; [reflexivity|]. split; [lia|].
  intros B U g n SB Hn HN.
  assert (HG : holds g pos (header_bytes ty size (n :: ls) ++ body)).
  { eapply block_hole; [exact H|exact SB|unfold pos; lia|lia|exact HN]. }
  destruct (block_read g pos ty size (n :: ls) body T HG) as [RH HB].
  - unfold size. lia.
  - cbn [length]. lia.
  - constructor; auto.
  - cbn [length] in RH, HB. replace (24 + 8 * S (length ls))%nat with (32 + 8 * length ls)%nat in RH, HB by lia.
    split; [exact RH|]. split; [exact HB|]. split; [apply holds_app in HG; apply HG|].
    intros i Hi. rewrite SB by (unfold pos; lia). apply (grows_same f f' 0 GF). lia.
Qed.

(** One value written on the way. *)
Lemma step : forall {A} wr rd (a : A) f, emits wr rd a -> (0 < length f)%nat ->
  exists f' l, wr f = Ok (f', l) /\ grows f f' /\ (0 < length f')%nat /\
    forall h, grows f' h -> N.of_nat (length h) < 2 ^ 63 -> u64 l /\
      forall g lo, (lo <= length f)%nat -> same_in h g lo (length h) -> rd g l = Ok a.
Proof.
  intros A wr rd a f E NE. destruct (E f NE) as (f' & l & W & G & R).
  pose proof (grows_length _ _ G) as LG. exists f', l. split; auto. split; auto. split; [lia|].
  intros h GH B. pose proof (grows_length _ _ GH) as LH. destruct (R ltac:(lia)) as [L RD].
  split; [unfold u64; lia|]. intros g lo Llo S. apply RD. intros i Hi. rewrite S by lia.
  apply (grows_same f' h 0 GH). lia.
Qed.

Lemma same_same_but : forall f g lo hi pos, same_in f g lo hi -> same_but f g lo hi pos.
Proof. intros f g lo hi pos S i Hi _. apply S. auto. Qed.

Lemma type_ok_lit : forall a b, a <> 0 -> b <> 0 -> is_space b = false -> type_ok 4 [35; 35; a; b].
Proof.
  intros a b A B W. split; [reflexivity|]. split.
  - intros X. cbn in X. decompose [or] X; auto; discriminate.
  - split; [reflexivity|exact W].
Qed.

Lemma field8 : forall n, u8 n -> field_ok (1%nat, n).
Proof. intros n H. exact H. Qed.
Lemma field16 : forall n, u16 n -> field_ok (2%nat, n).
Proof. intros n H. exact H. Qed.
Lemma field32 : forall n, u32 n -> field_ok (4%nat, n).
Proof. intros n H. exact H. Qed.
Lemma field64 : forall n, u64 n -> field_ok (8%nat, n).
Proof. intros n H. exact H. Qed.
Lemma field0 : forall k, field_ok (k, 0).
Proof. intros k. unfold field_ok. cbn [fst snd]. apply N.neq_0_lt_0, N.pow_nonzero. discriminate. Qed.

Ltac fields :=
  repeat first [apply Forall_cons | apply Forall_nil];
  try solve [apply field0 | apply field8; assumption | apply field16; assumption
            | apply field32; assumption | apply field64; assumption].

Lemma read_seq_vals : forall ks fs f p, holds f p (fields_bytes fs) -> Forall field_ok fs -> map fst fs = ks ->
  read_seq ks f p = Ok (map snd fs, (p + list_sum ks)%nat).
Proof. intros ks fs f p H F <-. apply read_seq_at; auto. Qed.

(* ------------------------------------------------------------------ *)
(** ** SI *)

Lemma emits_si : forall s, source_ok s -> emits (write_si_opt s) read_si_opt s.
Proof.
  intros [s|] OK f0 NE.
  2:{ exists f0, 0. split; [reflexivity|]. split; [apply grows_refl|]. intros _. split; reflexivity. }
  cbn [source_ok] in OK. destruct OK as (T1 & T2 & C & U1 & U2 & U3).
  destruct (step _ _ _ f0 (emits_tx _ T1) NE) as (f1 & l0 & E1 & G1 & N1 & R1).
  destruct (step _ _ _ f1 (emits_tx _ T2) N1) as (f2 & l1 & E2 & G2 & N2 & R2).
  destruct (step _ _ _ f2 (emits_md _ C) N2) as (f3 & l2 & E3 & G3 & N3 & R3).
  pose proof (grows_trans _ _ _ G1 (grows_trans _ _ _ G2 G3)) as G03.
  destruct (wb ty_si (24 + 24 + 8) l0 [l1; l2]
     (fields_bytes [(1%nat, si_type s); (1%nat, si_bus s); (1%nat, si_flags s); (5%nat, 0)]) f0 f3
     ltac:(apply type_ok_lit; discriminate || reflexivity) G03 NE)
    as (f' & b & E & G & P1 & P2 & HZ & HB & EB & LF & R).
  pose proof (grows_length _ _ G03) as L03. pose proof (grows_length _ _ G) as LG.
  pose proof (grows_length _ _ G1) as LG1. pose proof (grows_length _ _ G2) as LG2.
  exists f', (N.of_nat (b_pos b)).
  unfold write_si_opt, write_si. rewrite E1. cbn [bind]. rewrite E2. cbn [bind]. rewrite E3. cbn [bind].
  rewrite E. cbn [bind]. split; [reflexivity|]. split; [eapply grows_trans; eauto|].
  intros B. split; [lia|]. intros g S.
  assert (B3 : N.of_nat (length f3) < 2 ^ 63) by lia.
  destruct (R1 f3 (grows_trans _ _ _ G2 G3) B3) as [V1 D1].
  destruct (R2 f3 G3 B3) as [V2 D2]. destruct (R3 f3 (grows_refl _) B3) as [V3 D3].
  destruct (R B) with (g := g) (n := l0) as (RH & HF & _ & S3).
  { repeat constructor; assumption. }
  { apply same_same_but. exact S. }
  { assumption. }
  { eapply same_in_holds; [exact S|exact HZ|lia|rewrite le_bytes_length; lia|apply le8_nonempty]. }
  unfold read_si_opt. rewrite pos64_pos by lia. rewrite Nat2N.id. unfold read_si. rewrite RH. cbn [bind].
  erewrite read_seq_vals; [|exact HF|fields|reflexivity].
  cbn [bind map snd nth link b_links].
  rewrite (D1 g (length f0) ltac:(lia) S3). cbn [bind]. rewrite (D2 g (length f0) ltac:(lia) S3). cbn [bind].
  rewrite (D3 g (length f0) ltac:(lia) S3). cbn [bind]. destruct s. reflexivity.
Qed.

(* ------------------------------------------------------------------ *)
(** ** CA *)

Lemma elements_pos : forall dims, Forall (fun d => 0 < d) dims -> 0 < elements dims.
Proof.
  induction dims as [|d r IH]; intros F; [reflexivity|]. inversion_clear F as [|? ? F1 F2].
  cbn [elements]. specialize (IH F2). nia.
Qed.

Lemma elements_bound : forall d r, 0 < d -> Forall (fun d => 0 < d) r ->
  elements r <= elements (d :: r) /\ d <= elements (d :: r).
Proof. intros d r D F. pose proof (elements_pos r F). cbn [elements]. nia. Qed.

Lemma product_fold : forall dims acc, Forall (fun d => 0 < d) dims -> 0 < acc ->
  acc * elements dims < 2 ^ 64 ->
  fold_left (fun p d => w64 (p * (if 0 <? d then d else 1))) dims acc = acc * elements dims.
Proof.
  induction dims as [|d r IH]; intros acc F A B.
  - cbn [fold_left elements]. lia.
  - inversion_clear F as [|? ? F1 F2]. cbn [fold_left]. rewrite (proj2 (N.ltb_lt 0 d) F1).
    pose proof (elements_pos r F2) as EP. cbn [elements] in B.
    assert (X : acc * d < 2 ^ 64) by nia.
    unfold w64. rewrite N.mod_small by exact X. fold w64.
    rewrite IH; auto; cbn [elements]; nia.
Qed.

Lemma product_elements : forall dims, Forall (fun d => 0 < d) dims -> elements dims < 2 ^ 64 ->
  product_of_array dims = elements dims.
Proof.
  intros dims F B. unfold product_of_array. rewrite product_fold; auto; try lia; try reflexivity.
Qed.

Lemma sum_fold : forall dims acc, acc + axis_points dims < 2 ^ 64 ->
  fold_left (fun s d => w64 (s + d)) dims acc = acc + axis_points dims.
Proof.
  induction dims as [|d r IH]; intros acc B; cbn [fold_left axis_points] in *; [lia|].
  unfold w64. rewrite N.mod_small by lia. fold w64. rewrite IH; lia.
Qed.

Lemma sum_axis : forall dims, axis_points dims < 2 ^ 64 -> sum_of_array dims = axis_points dims.
Proof. intros dims B. unfold sum_of_array. rewrite sum_fold; lia. Qed.

Lemma take_or_all : forall {A} (d : A) l, take_or (length l) d l = l.
Proof.
  intros A d l. unfold take_or. apply nth_ext with (d := d) (d' := d).
  - rewrite map_length, seq_length. reflexivity.
  - intros i Hi. rewrite map_length, seq_length in Hi.
    rewrite nth_indep with (d' := (fun i => nth i l d) 0%nat) by (rewrite map_length, seq_length; auto).
    rewrite (map_nth (fun i => nth i l d)), seq_nth by auto. reflexivity.
Qed.

Lemma take_or_sized : forall {A} (d : A) l n, length l = n -> take_or n d l = l.
Proof. intros A d l n <-. apply take_or_all. Qed.

Lemma fill_links_spec : forall vs a b, length b = length vs -> fill_links (a ++ b) (length a) vs = Ok (a ++ vs).
Proof.
  induction vs as [|v vs IH]; intros a b L.
  - destruct b; [|discriminate]. reflexivity.
  - destruct b as [|x b]; [discriminate|]. cbn [fill_links].
    replace (length (a ++ x :: b) <=? length a)%nat with false
      by (symmetry; apply Nat.leb_gt; rewrite app_length; cbn [length]; lia).
    replace (set_nth (a ++ x :: b) (length a) v) with ((a ++ [v]) ++ b).
    + replace (S (length a)) with (length (a ++ [v])) by (rewrite app_length; cbn [length]; lia).
      rewrite IH by (cbn in L; lia). rewrite <- app_assoc. reflexivity.
    + clear. induction a as [|y a IH]; cbn [app length set_nth]; [reflexivity|]. rewrite <- IH. reflexivity.
Qed.

Lemma flat3_length : forall l, length (flat3 l) = (3 * length l)%nat.
Proof.
  induction l as [|[[a b] c] l IH]; [reflexivity|].
  change (flat3 ((a, b, c) :: l)) with ([a; b; c] ++ flat3 l).
  rewrite app_length, IH. cbn [length]. lia.
Qed.

Lemma flat3_u64 : forall l, Forall u64_3 l -> Forall u64 (flat3 l).
Proof.
  induction l as [|[[a b] c] l IH]; intros F; [constructor|]. inversion_clear F as [|? ? F1 F2]. destruct F1 as (A & B & C).
  change (flat3 ((a, b, c) :: l)) with ([a; b; c] ++ flat3 l).
  apply Forall_app. split; [repeat constructor; assumption|auto].
Qed.

Lemma links_at_mid : forall b pre xs post, b_links b = pre ++ xs ++ post ->
  links_at b (length pre) (length xs) = xs.
Proof.
  intros b pre xs post E. unfold links_at. apply nth_ext with (d := 0) (d' := 0).
  - rewrite map_length, seq_length. reflexivity.
  - intros i Hi. rewrite map_length, seq_length in Hi.
    rewrite nth_indep with (d' := (fun k => link b (length pre + k)) 0%nat) by (rewrite map_length, seq_length; auto).
    rewrite (map_nth (fun k => link b (length pre + k))), seq_nth by auto.
    unfold link. rewrite E, app_nth2 by lia. replace (length pre + (0 + i) - length pre)%nat with i by lia.
    apply app_nth1. auto.
Qed.

Lemma triple_at_mid : forall b pre x y z post, b_links b = pre ++ [x; y; z] ++ post ->
  triple_at b (length pre) = (x, y, z).
Proof.
  intros b pre x y z post E. unfold triple_at, link. rewrite E.
  rewrite (app_nth2 pre _ 0 (n := length pre)), (app_nth2 pre _ 0 (n := (length pre + 1)%nat)),
    (app_nth2 pre _ 0 (n := (length pre + 2)%nat)) by lia.
  replace (length pre - length pre)%nat with 0%nat by lia.
  replace (length pre + 1 - length pre)%nat with 1%nat by lia.
  replace (length pre + 2 - length pre)%nat with 2%nat by lia. reflexivity.
Qed.

Lemma triples_at_mid : forall b xs pre post, b_links b = pre ++ flat3 xs ++ post ->
  triples_at b (length pre) (length xs) = xs.
Proof.
  intros b xs. induction xs as [|[[x y] z] xs IH]; intros pre post E; [reflexivity|].
  change (flat3 ((x, y, z) :: xs)) with ([x; y; z] ++ flat3 xs) in E. rewrite <- app_assoc in E.
  unfold triples_at. cbn [length seq map]. rewrite Nat.mul_0_r, Nat.add_0_r.
  rewrite (triple_at_mid b pre x y z _ E). f_equal.
  rewrite <- seq_shift, map_map.
  replace (map (fun k => triple_at b (length pre + 3 * S k)) (seq 0 (length xs)))
    with (triples_at b (length (pre ++ [x; y; z])) (length xs)).
  - apply (IH _ post). rewrite E, <- app_assoc. reflexivity.
  - unfold triples_at. apply map_ext. intros k. f_equal. rewrite app_length. cbn [length]. lia.
Qed.

Lemma pairs8 : forall l, map fst (map (pair 8%nat) l) = repeat 8%nat (length l) /\
  map snd (map (pair 8%nat) (l : list N)) = l.
Proof. induction l as [|x l [A B]]; split; cbn; congruence. Qed.

Lemma pairs8_ok : forall l, Forall u64 l -> Forall field_ok (map (pair 8%nat) l).
Proof. induction l as [|x l IH]; intros F; inversion_clear F; constructor; auto. Qed.

Lemma list_sum_repeat : forall n k, list_sum (repeat k n) = (k * n)%nat.
Proof.
  induction n as [|n IH]; intros k; cbn [repeat]; [cbn; lia|].
  change (list_sum (k :: repeat k n)) with (k + list_sum (repeat k n))%nat. rewrite IH. lia.
Qed.

Lemma pairs8_length : forall l, length (fields_bytes (map (pair 8%nat) l)) = (8 * length l)%nat.
Proof. intros l. rewrite fields_bytes_length, (proj1 (pairs8 l)), list_sum_repeat. lia. Qed.

Lemma read_nums8 : forall l f p, holds f p (fields_bytes (map (pair 8%nat) l)) -> Forall u64 l ->
  read_seq (repeat 8%nat (length l)) f p = Ok (l, (p + 8 * length l)%nat).
Proof.
  intros l f p H F. rewrite (read_seq_vals (repeat 8%nat (length l)) _ f p H (pairs8_ok l F) (proj1 (pairs8 l))).
  rewrite (proj2 (pairs8 l)), list_sum_repeat. reflexivity.
Qed.

Lemma read_cycles_at : forall l f p bytes max, holds f p (fields_bytes (map (pair 8%nat) l)) -> Forall u64 l ->
  bytes + 8 * N.of_nat (length l) <= max -> read_cycles (length l) bytes max f p = Ok l.
Proof.
  induction l as [|x l IH]; intros f p bytes max H F B; [reflexivity|].
  cbn [map] in H. rewrite fields_bytes_cons in H. apply holds_app in H as [H1 H2].
  rewrite le_bytes_length in H2. inversion_clear F as [|? ? F1 F2].
  cbn [length read_cycles]. cbn [length] in B.
  replace (bytes + 8 <=? max) with true by (symmetry; apply N.leb_le; lia).
  rewrite (read_num_le f p 8 x H1) by exact F1. cbn [bind]. rewrite (IH _ _ (bytes + 8) max H2 F2) by lia.
  reflexivity.
Qed.

Lemma has_testbit : forall fl k, has fl (2 ^ k) = N.testbit fl k.
Proof.
  intros fl k. unfold has. destruct (N.testbit fl k) eqn:E.
  - apply negb_true_iff, N.eqb_neq. intros X. assert (Y : N.testbit (N.land fl (2 ^ k)) k = true).
    { rewrite N.land_spec, E, N.pow2_bits_true. reflexivity. }
    rewrite X in Y. rewrite N.bits_0 in Y. discriminate.
  - apply negb_false_iff, N.eqb_eq. apply N.bits_inj. intros j. rewrite N.bits_0, N.land_spec.
    destruct (N.eq_dec j k) as [->|NE]; [rewrite E; reflexivity|].
    rewrite N.pow2_bits_false by auto. apply andb_false_r.
Qed.

Lemma nof_dims_length : forall dims, N.of_nat (length dims) < 2 ^ 16 -> nof_dims dims = length dims.
Proof. intros dims H. unfold nof_dims, w16. rewrite N.mod_small by exact H. apply Nat2N.id. Qed.

(** The six groups of links and the three groups of numbers of an array block, one after the other. *)
Lemma ca_link_values_ok : forall a, ca_ok a -> Forall u64 (ca_link_values a) /\
  S (length (ca_link_values a)) = ca_nof_links a.
Proof.
  intros a OK. unfold ca_ok, sized in OK. cbv zeta in OK.
  destruct OK as (_ & _ & _ & _ & _ & Hn & Hd & He & Hs & L1 & F1 & L2 & F2 & L3 & F3 & F4 & _ & F5 & _
    & L6 & F6 & L7 & F7 & _).
  unfold ca_link_values, ca_nof_links. rewrite (product_elements _ Hd He), (nof_dims_length _ Hn).
  rewrite (has_testbit _ 0), (has_testbit _ 1), (has_testbit _ 2), (has_testbit _ 3), (has_testbit _ 4),
    (has_testbit _ 5). unfold is_dg.
  set (i1 := a_storage a =? 2) in *. set (i2 := N.testbit (a_flags a) 0) in *.
  set (i3 := N.testbit (a_flags a) 1) in *. set (i4 := N.testbit (a_flags a) 2) in *.
  set (i5 := N.testbit (a_flags a) 3) in *. set (i6 := N.testbit (a_flags a) 4) in *.
  set (i7 := N.testbit (a_flags a) 5) in *.
  split.
  - repeat (apply Forall_app; split).
    + destruct i1; [|constructor]. rewrite take_or_sized by auto. exact F1.
    + destruct i2; [|constructor]. rewrite take_or_sized by auto. apply flat3_u64. exact F2.
    + destruct i3; [|constructor]. rewrite take_or_sized by auto. apply flat3_u64. exact F3.
    + destruct i4; [|constructor]. apply flat3_u64. repeat constructor. exact F4.
    + destruct i5; [|constructor]. apply flat3_u64. repeat constructor. exact F5.
    + destruct i6; [|constructor]. rewrite take_or_sized by auto. exact F6.
    + destruct (i6 && negb i7); [|constructor]. rewrite take_or_sized by auto. apply flat3_u64. exact F7.
  - rewrite !app_length. clear - L1 L2 L3 L6 L7.
    destruct i1, i2, i3, i4, i5, i6, i7; cbn [andb negb] in L7 |- *;
      rewrite ?flat3_length; rewrite ?take_or_sized by auto; rewrite ?L1, ?L2, ?L3, ?L6, ?L7;
      cbn [length]; lia.
Qed.

(** A reader that insists on the block type, as the reader of a composition does for the first block. *)
Definition typed {T} (t : list N) (rd : file -> nat -> res (T * N)) (g : file) (p : nat) : res (T * N) :=
  if list_eq_dec N.eq_dec (block_type g p) t then rd g p else UB.

Lemma typed_at : forall {T} (rd : file -> nat -> res (T * N)) a b g p size ls,
  plain_text [a; b] -> holds g p (header_bytes [35; 35; a; b] size ls) -> typed [a; b] rd g p = rd g p.
Proof.
  intros T rd a b g p size ls PT H. unfold typed.
  assert (X : block_type g p = [a; b]).
  { apply block_type_at; auto. unfold header_bytes in H. apply holds_app in H as [H _]. exact H. }
  rewrite X. destruct (list_eq_dec N.eq_dec [a; b] [a; b]); congruence.
Qed.

Lemma writes_untyped : forall {T} t (wr : T -> file -> res (file * nat)) rd x y,
  writes_as wr (typed t rd) x y -> writes_as wr rd x y.
Proof.
  intros T t wr rd x y W f NE. destruct (W f NE) as (f' & pos & E & G & P1 & P2 & R).
  exists f', pos. split; auto. split; auto. split; auto. split; auto. intros B. destruct (R B) as [Z R'].
  split; auto. intros g n S U H. specialize (R' g n S U H). unfold typed in R'. destruct (list_eq_dec N.eq_dec (block_type g pos) t); congruence.
Qed.

Lemma plain2 : forall a b, a <> 0 -> b <> 0 -> is_space a = false -> is_space b = false -> plain_text [a; b].
Proof.
  intros a b A B W1 W2. split; [|intros _; split; auto]. intros X. cbn in X. decompose [or] X; auto.
Qed.

Lemma writes_ca : forall a, ca_ok a -> writes write_ca (typed [67; 65] read_ca) a.
Proof.
  intros a OK f0 NE.
  destruct (ca_link_values_ok a OK) as [UL LL].
  pose proof OK as OK'. unfold ca_ok, sized in OK'. cbv zeta in OK'.
  destruct OK' as (U1 & U2 & U3 & U4 & U5 & Hn & Hd & He & Hs & L1 & _ & L2 & _ & L3 & _ & _ & O4 & _ & O5
    & L6 & _ & L7 & _ & L8 & F8 & L9 & F9).
  assert (FL : fill_links (repeat 0 (ca_nof_links a)) 1 (ca_link_values a) = Ok (0 :: ca_link_values a)).
  { rewrite <- LL. apply (fill_links_spec (ca_link_values a) [0] (repeat 0 (length (ca_link_values a)))).
    apply repeat_length. }
  set (len := w64 (N.of_nat (24 + 8 * ca_nof_links a + 16 + 8 * nof_dims (a_dims a))
             + (if has (a_flags a) fFixed then 8 * sum_of_array (a_dims a) else 0)
             + (if is_template a then 8 * product_of_array (a_dims a) else 0))).
  destruct (wb ty_ca len 0 (ca_link_values a) (fields_bytes (ca_fields a)) f0 f0
     ltac:(apply type_ok_lit; discriminate || reflexivity) (grows_refl _) NE)
    as (f' & b & E & G & P1 & P2 & HZ & HB & EB & LF & R).
  exists f', (b_pos b). unfold write_ca. cbv zeta. rewrite FL. cbn [bind]. fold len. rewrite E. cbn [bind].
  split; [reflexivity|]. split; [exact G|]. split; [lia|]. split; [lia|].
  intros B. split; [exact HZ|]. intros g n SB Hn64 HN.
  destruct (R B UL g n SB Hn64 HN) as (RH & HF & HT & _). clear R HB HZ E FL SB HN G.
  rewrite (typed_at _ 67 65 g (b_pos b) _ _ ltac:(apply plain2; discriminate || reflexivity) HT). clear HT.
  set (pos := b_pos b) in *. clearbody pos.
  set (size := N.of_nat (32 + 8 * length (ca_link_values a) + length (fields_bytes (ca_fields a)))) in *.
  unfold read_ca. rewrite RH. cbn [bind].
  (* the numbers *)
  assert (SZ : size = N.of_nat (32 + 8 * length (ca_link_values a) + length (fields_bytes (ca_fields a)))) by reflexivity.
  clearbody size.
  unfold ca_fields in HF, SZ. cbv zeta in HF, SZ.
  rewrite (product_elements _ Hd He), (sum_axis _ Hs), (nof_dims_length _ Hn) in HF, SZ.
  change fFixed with (2 ^ 5) in HF, SZ. rewrite (has_testbit _ 5) in HF, SZ. unfold is_template in HF, SZ.
  rewrite take_or_all in HF, SZ.
  set (head := [(1%nat, a_type a); (1%nat, a_storage a); (2%nat, N.of_nat (length (a_dims a)));
                (4%nat, a_flags a); (4%nat, a_offset a); (4%nat, a_invalid a)]) in *.
  set (q := (pos + (32 + 8 * length (ca_link_values a)))%nat) in *.
  rewrite !fields_bytes_app in HF, SZ. apply holds_app in HF as [HF0 HF].
  apply holds_app in HF as [HF1 HF]. apply holds_app in HF as [HF2 HF3].
  assert (L0 : length (fields_bytes head) = 16%nat) by reflexivity.
  rewrite (read_seq_vals [1; 1; 2; 4; 4; 4]%nat head g q HF0); [|unfold head; fields|reflexivity].
  change (list_sum [1; 1; 2; 4; 4; 4]%nat) with 16%nat.
  cbn [bind head map snd nth]. rewrite Nat2N.id.
  rewrite L0 in HF1, HF2, HF3. rewrite pairs8_length in HF2, HF3.
  assert (FD : Forall u64 (a_dims a)).
  { clear -Hd He. unfold u64 in *. induction (a_dims a) as [|d r IH]; [constructor|].
    inversion_clear Hd as [|? ? D1 D2]. destruct (elements_bound d r D1 D2). constructor; [lia|].
    apply IH; auto. lia. }
  rewrite (read_nums8 _ _ _ HF1 FD). cbn [bind].
  rewrite (product_elements _ Hd He), (sum_axis _ Hs).
  set (q2 := (q + 16 + 8 * length (a_dims a))%nat) in *.
  change fFixed with (2 ^ 5). change fDynamic with (2 ^ 0). change fInput with (2 ^ 1).
  change fOutput with (2 ^ 2). change fCompare with (2 ^ 3). change fAxis with (2 ^ 4).
  rewrite !has_testbit.
  assert (RV : (if N.testbit (a_flags a) 5
                then read_seq (repeat 8%nat (N.to_nat (axis_points (a_dims a)))) g q2
                else Ok ([], q2)) = Ok (a_values a, (q2 + 8 * length (a_values a))%nat)).
  { destruct (N.testbit (a_flags a) 5).
    - rewrite take_or_sized in HF2 by auto. rewrite <- L8. apply read_nums8; auto.
    - destruct (a_values a); [|discriminate]. cbn [length]. rewrite Nat.mul_0_r, Nat.add_0_r. reflexivity. }
  rewrite RV. cbn [bind].
  assert (LV : length (fields_bytes (if N.testbit (a_flags a) 5
     then map (pair 8%nat) (take_or (N.to_nat (axis_points (a_dims a))) 0 (a_values a)) else []))
     = (8 * length (a_values a))%nat).
  { destruct (N.testbit (a_flags a) 5).
    - rewrite take_or_sized by auto. apply pairs8_length.
    - destruct (a_values a); [reflexivity|discriminate]. }
  rewrite LV in HF3.
  assert (RC : (if (a_storage a =? 1) || (a_storage a =? 2)
                then read_cycles (N.to_nat (elements (a_dims a)))
                       (N.of_nat (q2 + 8 * length (a_values a) - pos)) size g
                       (q2 + 8 * length (a_values a))
                else Ok []) = Ok (a_cycles a)).
  { rewrite !app_length, L0, pairs8_length, LV in SZ.
    destruct ((a_storage a =? 1) || (a_storage a =? 2)).
    - rewrite take_or_sized in HF3, SZ by auto. rewrite <- L9. apply read_cycles_at; auto.
      rewrite pairs8_length in SZ. unfold q2, q. lia.
    - destruct (a_cycles a); [reflexivity|discriminate]. }
  cbn [b_len]. rewrite RC. cbn [bind]. clear RC RV HF0 HF1 HF2 HF3 LV SZ L8 L9 F8 F9 UL LL RH.
  (* the links *)
  set (bb := {| b_pos := pos; b_type := ty_ca; b_len := size; b_links := n :: ca_link_values a |}).
  assert (LK : b_links bb = n :: ca_link_values a) by reflexivity. clearbody bb.
  assert (L0n : link bb 0 = n) by (unfold link; rewrite LK; reflexivity).
  unfold ca_link_values in LK. cbv zeta in LK.
  rewrite (product_elements _ Hd He), (nof_dims_length _ Hn) in LK.
  change fFixed with (2 ^ 5) in LK. change fDynamic with (2 ^ 0) in LK. change fInput with (2 ^ 1) in LK.
  change fOutput with (2 ^ 2) in LK. change fCompare with (2 ^ 3) in LK. change fAxis with (2 ^ 4) in LK.
  rewrite !has_testbit in LK. unfold is_dg in LK.
  set (i1 := a_storage a =? 2) in *. set (i2 := N.testbit (a_flags a) 0) in *.
  set (i3 := N.testbit (a_flags a) 1) in *. set (i4 := N.testbit (a_flags a) 2) in *.
  set (i5 := N.testbit (a_flags a) 3) in *. set (i6 := N.testbit (a_flags a) 4) in *.
  set (i7 := N.testbit (a_flags a) 5) in *.
  set (prod := N.to_nat (elements (a_dims a))) in *. set (d := length (a_dims a)) in *.
  clearbody prod.
  match type of LK with _ = n :: ?x1 ++ ?x2 ++ ?x3 ++ ?x4 ++ ?x5 ++ ?x6 ++ ?x7 =>
    set (s1 := x1) in LK; set (s2 := x2) in LK; set (s3 := x3) in LK; set (s4 := x4) in LK;
    set (s5 := x5) in LK; set (s6 := x6) in LK; set (s7 := x7) in LK end.
  assert (E1 : s1 = a_data a).
  { unfold s1. destruct i1; [apply take_or_sized; auto|]. destruct (a_data a); [reflexivity|discriminate]. }
  assert (E2 : s2 = flat3 (a_dynamic a)).
  { unfold s2. destruct i2; [rewrite take_or_sized by auto; reflexivity|]. destruct (a_dynamic a); [reflexivity|discriminate]. }
  assert (E3 : s3 = flat3 (a_input a)).
  { unfold s3. destruct i3; [rewrite take_or_sized by auto; reflexivity|]. destruct (a_input a); [reflexivity|discriminate]. }
  assert (E6 : s6 = a_convs a).
  { unfold s6. destruct i6; [apply take_or_sized; auto|]. destruct (a_convs a); [reflexivity|discriminate]. }
  assert (E7 : s7 = flat3 (a_axis a)).
  { unfold s7. destruct (i6 && negb i7); [rewrite take_or_sized by auto; reflexivity|]. destruct (a_axis a); [reflexivity|discriminate]. }
  assert (E4 : s4 = if i4 then flat3 [a_output a] else []) by reflexivity.
  assert (E5 : s5 = if i5 then flat3 [a_compare a] else []) by reflexivity.
  clearbody s1 s2 s3 s4 s5 s6 s7.
  set (p1 := [n]). set (p2 := p1 ++ s1). set (p3 := p2 ++ s2). set (p4 := p3 ++ s3). set (p5 := p4 ++ s4).
  set (p6 := p5 ++ s5). set (p7 := p6 ++ s6).
  assert (K1 : b_links bb = p1 ++ s1 ++ (s2 ++ s3 ++ s4 ++ s5 ++ s6 ++ s7)) by exact LK.
  assert (K2 : b_links bb = p2 ++ s2 ++ (s3 ++ s4 ++ s5 ++ s6 ++ s7)) by (rewrite K1; unfold p2; rewrite !app_assoc; reflexivity).
  assert (K3 : b_links bb = p3 ++ s3 ++ (s4 ++ s5 ++ s6 ++ s7)) by (rewrite K2; unfold p3; rewrite !app_assoc; reflexivity).
  assert (K4 : b_links bb = p4 ++ s4 ++ (s5 ++ s6 ++ s7)) by (rewrite K3; unfold p4; rewrite !app_assoc; reflexivity).
  assert (K5 : b_links bb = p5 ++ s5 ++ (s6 ++ s7)) by (rewrite K4; unfold p5; rewrite !app_assoc; reflexivity).
  assert (K6 : b_links bb = p6 ++ s6 ++ s7) by (rewrite K5; unfold p6; rewrite !app_assoc; reflexivity).
  assert (K7 : b_links bb = p7 ++ s7 ++ []) by (rewrite K6; unfold p7; rewrite app_nil_r, !app_assoc; reflexivity).
  assert (M2 : (1 + (if i1 then prod else 0))%nat = length p2).
  { unfold p2. rewrite app_length, E1, L1. reflexivity. }
  rewrite M2.
  assert (M3 : (length p2 + (if i2 then 3 * d else 0))%nat = length p3).
  { unfold p3. rewrite app_length, E2, flat3_length, L2. destruct i2; lia. }
  rewrite M3.
  assert (M4 : (length p3 + (if i3 then 3 * d else 0))%nat = length p4).
  { unfold p4. rewrite app_length, E3, flat3_length, L3. destruct i3; lia. }
  rewrite M4.
  assert (M5 : (length p4 + (if i4 then 3 else 0))%nat = length p5).
  { unfold p5. rewrite app_length, E4. destruct i4; rewrite ?flat3_length; reflexivity. }
  rewrite M5.
  assert (M6 : (length p5 + (if i5 then 3 else 0))%nat = length p6).
  { unfold p6. rewrite app_length, E5. destruct i5; rewrite ?flat3_length; reflexivity. }
  rewrite M6.
  assert (M7 : (length p6 + (if i6 then d else 0))%nat = length p7).
  { unfold p7. rewrite app_length, E6, L6. reflexivity. }
  rewrite M7. rewrite L0n.
  assert (V1 : (if i1 then links_at bb 1 prod else []) = a_data a).
  { destruct i1; [|destruct (a_data a); [reflexivity|discriminate]]. rewrite <- L1. subst s1.
    apply (links_at_mid bb p1 _ _ K1). }
  assert (V2 : (if i2 then triples_at bb (length p2) d else []) = a_dynamic a).
  { destruct i2; [|destruct (a_dynamic a); [reflexivity|discriminate]]. rewrite <- L2. rewrite E2 in K2.
    apply (triples_at_mid bb _ p2 _ K2). }
  assert (V3 : (if i3 then triples_at bb (length p3) d else []) = a_input a).
  { destruct i3; [|destruct (a_input a); [reflexivity|discriminate]]. rewrite <- L3. rewrite E3 in K3.
    apply (triples_at_mid bb _ p3 _ K3). }
  assert (V4 : (if i4 then triple_at bb (length p4) else (0, 0, 0)) = a_output a).
  { destruct i4; [|symmetry; auto]. rewrite E4 in K4. destruct (a_output a) as [[x y] z].
    apply (triple_at_mid bb p4 x y z _ K4). }
  assert (V5 : (if i5 then triple_at bb (length p5) else (0, 0, 0)) = a_compare a).
  { destruct i5; [|symmetry; auto]. rewrite E5 in K5. destruct (a_compare a) as [[x y] z].
    apply (triple_at_mid bb p5 x y z _ K5). }
  assert (V6 : (if i6 then links_at bb (length p6) d else []) = a_convs a).
  { destruct i6; [|destruct (a_convs a); [reflexivity|discriminate]]. rewrite <- L6. rewrite E6 in K6.
    apply (links_at_mid bb p6 _ _ K6). }
  assert (V7 : (if i6 && negb i7 then triples_at bb (length p7) d else []) = a_axis a).
  { destruct (i6 && negb i7); [|destruct (a_axis a); [reflexivity|discriminate]]. rewrite <- L7. rewrite E7 in K7.
    apply (triples_at_mid bb _ p7 _ K7). }
  rewrite V1, V2, V3, V4, V5, V6, V7. destruct a. reflexivity.
Qed.
