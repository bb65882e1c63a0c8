(** MDF3: conversions, channels, channel groups, data groups, the header and the whole file. *)
From Verif Require Import Base BlockModel BlockSpec BlockProofs BlockProofs2 BlockProofs3 BlockProofs4.
From Verif Require Import ConvModel ConvProofs3 CcModel CcProofs Cc3Proofs MetaModel MetaProofs Meta3Model Meta3Spec Meta3Proofs.
Local Open Scope N_scope.

Definition tail_ok (k : cc3) (pads : list (list N)) (k' : cc3) : Prop :=
  forall f f1 links, (0 < length f)%nat -> write_range_texts false (k_ranges k) f = (f1, links) ->
  grows f f1 /\ k_type k < 65536 /\ (2 <= length (cc3_tail k pads links))%nat /\
  (k_type k = 10 -> (length (k_formula k) + 2 <= length (cc3_tail k pads links))%nat) /\
  ccx_size k (cc3_tail k pads links) < 65536 /\
  (N.of_nat (length f1) < 2 ^ 32 -> forall g q, holds g q (cc3_tail k pads links) ->
     same_in f1 g (length f) (length f1) ->
     exists nof, read_num false 2 g q = Ok (nof, (q + 2)%nat) /\
       read_values3 (k_type k) nof g (q + 2) = Ok k').

(** The parameters of a conversion, in both shapes. *)
Lemma tail_numbers : forall t vals pads nof, length pads = length vals ->
  Forall (fun p => (7 <= length p)%nat) pads -> 46 + 16 * N.of_nat (length vals) < 65536 -> t < 65536 -> t <> 10 ->
  cc3_tail (mkCc3 t (map PD vals) [] [] []) pads [] =
    le_bytes 2 nof ++ params_bytes (map (fun '(d, q) => (PD d, q)) (combine vals pads)) -> nof < 65536 ->
  (forall g q, read_values3 t nof g q = (let* '(vs, _) := read_dbls (length vals) g q in Ok (mkCc3 t vs [] [] []))) ->
  tail_ok (mkCc3 t (map PD vals) [] [] []) pads (mkCc3 t (firstn (length vals) (seen (combine vals pads))) [] [] []).
Proof.
  intros t vals pads nof LP FP SZ T T10 TE NB RV f f1 links NE E.
  cbn [k_ranges write_range_texts] in E. assert (f1 = f) as -> by congruence. assert (links = []) as -> by congruence. clear E.
  assert (CL : length (combine vals pads) = length vals) by (rewrite combine_length; lia).
  assert (FC : Forall (fun e : dbl * list N => (7 <= length (snd e))%nat) (combine vals pads)).
  { apply Forall_forall. intros [d q] I. apply in_combine_r in I. rewrite Forall_forall in FP. apply FP; auto. }
  assert (BL : length (params_bytes (map (fun '(d, q) => (PD d, q)) (combine vals pads))) = (16 * length vals)%nat).
  { rewrite params_length.
    - rewrite map_length, CL. reflexivity.
    - apply Forall_forall. intros [d q] I. apply in_map_iff in I as ([d' q'] & E & I).
      assert (q = q') as -> by congruence. rewrite Forall_forall in FC. exact (FC _ I). }
  split; [apply grows_refl|]. split; [exact T|]. rewrite TE, app_length, le_bytes_length, BL.
  split; [lia|]. split; [intros X; cbn [k_type] in X; congruence|]. split.
  { unfold ccx_size. rewrite app_length, le_bytes_length, BL. cbn [k_type k_formula length]. destruct (t =? 10); lia. }
  intros _ g q H _. apply holds_app in H as [H1 H2]. rewrite le_bytes_length in H2.
  exists nof. split; [apply read_num_le; auto|]. cbn [k_type]. rewrite RV.
  destruct (read_dbls_at _ (length vals) _ _ H2 FC ltac:(lia)) as [z Z]. rewrite Z. reflexivity.
Qed.

Lemma combine_pd : forall (vals : list dbl) (pads : list (list N)),
  combine (map PD vals) pads = map (fun '(d, q) => (PD d, q)) (combine vals pads).
Proof. induction vals as [|v r IH]; intros [|p q]; cbn [map combine]; auto. rewrite IH. reflexivity. Qed.

Lemma conv3_tail : forall k pads k', conv3_as k pads k' -> tail_ok k pads k'.
Proof.
  intros k pads k' A. destruct A as [t vals pads T LP FP SZ|t vals pads n T LK LP FP SZ|s pads PT LF|l pads FT SZ|l pads SZ|t pads T NI].
  - apply tail_numbers with (nof := N.of_nat (length vals)); auto.
    + destruct T as [->|[->|[->|[->| ->]]]]; reflexivity.
    + destruct T as [->|[->|[->|[->| ->]]]]; discriminate.
    + unfold cc3_tail. cbn [k_type k_vals]. rewrite map_length, w16_id, combine_pd by lia.
      destruct T as [->|[->|[->|[->| ->]]]]; reflexivity.
    + lia.
    + intros g q. unfold read_values3. rewrite Nat2N.id. destruct T as [->|[->|[->|[->| ->]]]]; reflexivity.
  - assert (LD : (length vals / 2 = n)%nat) by (rewrite LK, Nat.mul_comm; apply Nat.div_mul; lia).
    apply tail_numbers with (nof := N.of_nat n); auto.
    + destruct T as [->| ->]; reflexivity.
    + destruct T as [->| ->]; discriminate.
    + unfold cc3_tail. cbn [k_type k_vals].
      replace (w16 (N.of_nat (length (map PD vals) / 2))) with (N.of_nat n)
        by (rewrite map_length, LD, w16_id by lia; reflexivity).
      rewrite combine_pd. destruct T as [->| ->]; reflexivity.
    + lia.
    + intros g q. unfold read_values3. rewrite Nat2N.id, LK. destruct T as [->| ->]; reflexivity.
  - intros f f1 links NE E.
    cbn [k_ranges write_range_texts] in E. assert (f1 = f) as -> by congruence. assert (links = []) as -> by congruence. clear E.
    assert (TE : cc3_tail (mkCc3 10 [] s [] []) pads [] = le_bytes 2 (N.of_nat (length s)) ++ s).
    { unfold cc3_tail. cbn [k_type k_formula N.eqb Pos.eqb orb]. rewrite w16_id by exact LF. reflexivity. }
    split; [apply grows_refl|]. split; [reflexivity|]. rewrite TE, app_length, le_bytes_length. cbn [k_formula].
    split; [lia|]. split; [intros _; lia|]. split.
    { unfold ccx_size. rewrite app_length, le_bytes_length. cbn [k_type k_formula N.eqb Pos.eqb]. lia. }
    intros _ g q H _. apply holds_app in H as [H1 H2]. rewrite le_bytes_length in H2.
    exists (N.of_nat (length s)). split; [apply read_num_le; auto|]. unfold read_values3. cbn [k_type N.eqb Pos.eqb orb].
    rewrite Nat2N.id. f_equal. f_equal. destruct (length s =? 0)%nat eqn:Z.
    + apply Nat.eqb_eq in Z. destruct s; [reflexivity|discriminate].
    + rewrite (read_str_written (length s) s); auto. rewrite str_bytes_pad, Nat.sub_diag, app_nil_r by lia. exact H2.
  - intros f f1 links NE E.
    cbn [k_ranges write_range_texts] in E. assert (f1 = f) as -> by congruence. assert (links = []) as -> by congruence. clear E.
    assert (TE : cc3_tail (mkCc3 11 [] [] l []) pads [] = le_bytes 2 (N.of_nat (length l)) ++ text_bytes l).
    { unfold cc3_tail. cbn [k_type k_texts N.eqb Pos.eqb orb]. rewrite w16_id by lia. reflexivity. }
    split; [apply grows_refl|]. split; [reflexivity|]. rewrite TE, app_length, le_bytes_length, text_bytes_length. cbn [k_formula length].
    split; [lia|]. split; [intros _; lia|]. split.
    { unfold ccx_size. rewrite app_length, le_bytes_length, text_bytes_length. cbn [k_type k_formula N.eqb Pos.eqb]. lia. }
    intros _ g q H _. apply holds_app in H as [H1 H2]. rewrite le_bytes_length in H2.
    exists (N.of_nat (length l)). split; [apply read_num_le; auto; change (256 ^ N.of_nat 2) with 65536; lia|].
    unfold read_values3. cbn [k_type N.eqb Pos.eqb orb]. rewrite Nat2N.id, (read_texts_at _ _ _ H2 FT). reflexivity.
  - intros f f1 links NE E. cbn [k_ranges] in E.
    destruct (range_texts3 _ _ _ _ NE E) as (G & L & R).
    assert (TE : cc3_tail (mkCc3 12 [] [] [] l) pads links = le_bytes 2 (N.of_nat (length l)) ++ range_bytes (combine l links)).
    { unfold cc3_tail. cbn [k_type k_ranges N.eqb Pos.eqb orb]. rewrite w16_id by lia. reflexivity. }
    assert (CL : length (combine l links) = length l) by (rewrite combine_length; lia).
    split; [exact G|]. split; [reflexivity|]. rewrite TE, app_length, le_bytes_length, range_bytes_length. cbn [k_formula length].
    split; [lia|]. split; [intros X; discriminate X|]. split.
    { unfold ccx_size. rewrite app_length, le_bytes_length, range_bytes_length, CL. cbn [k_type k_formula N.eqb Pos.eqb]. lia. }
    intros B g q H S. specialize (R B). apply holds_app in H as [H1 H2]. rewrite le_bytes_length in H2.
    exists (N.of_nat (length l)). split; [apply read_num_le; auto; change (256 ^ N.of_nat 2) with 65536; lia|].
    unfold read_values3. cbn [k_type N.eqb Pos.eqb orb]. rewrite Nat2N.id. rewrite <- CL at 1. rewrite (read_ranges_at _ _ _ H2).
    + cbn [bind]. f_equal. f_equal. clear - L. revert links L.
      induction l as [|[[lo hi] t] r IH]; intros [|k ls] L; try discriminate; [reflexivity|].
      cbn [combine map]. f_equal. apply IH. cbn [length] in L. lia.
    + apply Forall_forall. intros [e k] I. apply in_combine_r in I. rewrite Forall_forall in R.
      destruct (R k I) as [R1 R2]. cbn [snd]. split; [exact R1|apply R2; exact S].
  - intros f f1 links NE E.
    cbn [k_ranges write_range_texts] in E. assert (f1 = f) as -> by congruence. assert (links = []) as -> by congruence. clear E.
    assert (NE' : forall x, In x [0; 1; 2; 6; 7; 8; 9; 10; 11; 12] -> (t =? x) = false).
    { intros x I. apply N.eqb_neq. intros ->. contradiction. }
    assert (TE : cc3_tail (mkCc3 t [] [] [] []) pads [] = le_bytes 2 0).
    { unfold cc3_tail. cbn [k_type]. rewrite !NE' by (cbn; tauto). reflexivity. }
    split; [apply grows_refl|]. split; [exact T|]. rewrite TE, le_bytes_length.
    split; [lia|]. split; [intros _; cbn; lia|]. split.
    { unfold ccx_size. rewrite le_bytes_length. cbn [k_type k_formula length]. destruct (t =? 10); lia. }
    intros _ g q H _. exists 0. split; [apply read_num_le; auto; reflexivity|].
    unfold read_values3. cbn [k_type]. rewrite !NE' by (cbn; tauto). reflexivity.
Qed.

Lemma ccx_emit : forall c c', ccx_as c c' -> forall f, (0 < length f)%nat ->
  exists f' p, write_ccx c f = Ok (f', p) /\ grows f f' /\ (length f <= p)%nat /\ (p + 4 <= length f')%nat /\
    (N.of_nat (length f') < 2 ^ 32 -> forall g, same_in f' g (length f) (length f') -> read_ccx g p = Ok c').
Proof.
  intros c c' (M1 & M2 & U & k & A & ->) f NE.
  destruct (write_range_texts false (k_ranges (x_conv c)) f) as [f1 links] eqn:E.
  destruct (conv3_tail _ _ _ A f f1 links NE E) as (G & T & L2 & LF & SZ & R).
  destruct (ccx_placed c f f1 links NE T E G L2 LF SZ) as (f' & EW & EF).
  set (tail := cc3_tail (x_conv c) (x_pads c) links) in *.
  pose proof (grows_length _ _ G) as LG.
  exists f', (length f1). split; [exact EW|].
  assert (G' : grows f1 f') by (rewrite EF; eexists; reflexivity).
  split; [eapply grows_trans; eauto|]. split; [exact LG|].
  split; [rewrite EF, !app_length, header3_length; lia|].
  intros B g S. pose proof (grows_length _ _ G') as LG'.
  assert (H : holds g (length f1) (header3_bytes false ty_cc3 (ccx_size (x_conv c) tail) [] ++ fixed3 c ++ tail)).
  { eapply same_in_holds; [exact S|rewrite EF; apply holds_tail|exact LG| |apply header3_app_ne].
    rewrite EF, !app_length. lia. }
  pose proof H as HT. apply holds_app in HT as [_ HT]. apply holds_app in HT as [_ HT].
  rewrite header3_length, fixed3_length in HT. cbn [length] in HT.
  replace (length f1 + (4 + 4 * 0) + 40)%nat with (length f1 + 44)%nat in HT by lia.
  destruct (R ltac:(lia) g _ HT) as (nof & RN & RV).
  { intros i Hi. rewrite S by lia. apply (grows_same f1 f' 0 G'). lia. }
  replace (length f1 + 44 + 2)%nat with (length f1 + 46)%nat in RN, RV by lia.
  eapply ccx_read; eauto.
Qed.

Lemma emits_ccx : forall c c', ccx_opt_as c c' -> emits3 (write_ccx_opt c) read_ccx_opt c'.
Proof.
  intros [c|] [c'|] A f NE; try contradiction.
  - destruct (ccx_emit c c' A f NE) as (f' & p & E & G & L1 & L2 & R).
    exists f', (N.of_nat p). unfold write_ccx_opt. rewrite E. split; [reflexivity|]. split; [exact G|].
    intros B. split; [lia|]. intros g S. unfold read_ccx_opt.
    replace (0 <? N.of_nat p) with true by (symmetry; apply N.ltb_lt; lia). rewrite Nat2N.id, (R B g S). reflexivity.
  - exists f, 0. split; [reflexivity|]. split; [apply grows_refl|]. intros _. split; reflexivity.
Qed.

(* ------------------------------------------------------------------ *)
(** ** A block and its children *)


Lemma emits3_at : forall {A} wr (rd : file -> N -> res A) a f, emits3 wr rd a -> (0 < length f)%nat ->
  exists x l, wr f = Ok (f ++ x, l) /\
    (N.of_nat (length (f ++ x)) < 2 ^ 32 -> l < 2 ^ 32 /\
     forall g, holds g (length f) x -> rd g l = Ok a).
Proof.
  intros A wr rd a f E NE. destruct (E f NE) as (f' & l & W & [x ->] & R). exists x, l. split; [exact W|].
  intros B. destruct (R B) as [LB R']. split; [exact LB|]. intros g [HL H]. apply R'.
  intros i Hi. rewrite app_length in Hi. specialize (H (i - length f)%nat ltac:(lia)).
  replace (length f + (i - length f))%nat with i in H by lia. rewrite H.
  rewrite nth_error_app2 by lia. reflexivity.
Qed.

(** A child written behind a block at the end of [f] and linked. *)
Lemma child3 : forall {A} wr (rd : file -> N -> res A) a f ty size la lb r, emits3 wr rd a ->
  exists x l, wr (f ++ header3_bytes false ty size (la ++ 0 :: lb) ++ r) =
                Ok (f ++ header3_bytes false ty size (la ++ 0 :: lb) ++ r ++ x, l) /\
    link3 (f ++ header3_bytes false ty size (la ++ 0 :: lb) ++ r ++ x) (length f) (length la) l =
      f ++ header3_bytes false ty size (la ++ l :: lb) ++ r ++ x /\
    (N.of_nat (length f + (4 + 4 * length (la ++ 0%N :: lb)) + length r + length x) < 2 ^ 32 -> l < 2 ^ 32 /\
     forall g, holds g (length f + (4 + 4 * length (la ++ 0%N :: lb)) + length r) x -> rd g l = Ok a).
Proof.
  intros A wr rd a f ty size la lb r E.
  assert (LL : length (f ++ header3_bytes false ty size (la ++ 0 :: lb) ++ r) =
    (length f + (4 + 4 * length (la ++ 0%N :: lb)) + length r)%nat) by (rewrite !app_length, header3_length, app_length; lia).
  destruct (emits3_at wr rd a (f ++ header3_bytes false ty size (la ++ 0 :: lb) ++ r) E) as (x & l & W & R).
  { rewrite LL. lia. }
  exists x, l. split; [rewrite W, <- !app_assoc; reflexivity|]. split; [apply link3_at|].
  rewrite app_length, LL in R. exact R.
Qed.

(* ------------------------------------------------------------------ *)
(** ** Channels *)

Lemma cn3_type_ok : type_ok 2 ty_cn3.
Proof. split; [reflexivity|]. split; [|split; reflexivity]. intros Y; cbn in Y; decompose [or] Y; auto; discriminate. Qed.

Lemma cn3_body_length : forall c a b, length (cn3_body c a b) = 204%nat.
Proof.
  intros. unfold cn3_body. rewrite !app_length, le_bytes_length, !str_bytes_length, fields_bytes_length. reflexivity.
Qed.

Lemma w32_id : forall n, n < 2 ^ 32 -> w32 n = n.
Proof. intros n H. unfold w32. apply N.mod_small. exact H. Qed.

Lemma read_more_at : forall k done size f p v, done < size -> holds f p (le_bytes k v) -> v < 256 ^ N.of_nat k ->
  read_more k done size f p = Ok (v, (p + k)%nat).
Proof.
  intros k done size f p v L H B. unfold read_more. rewrite (proj2 (N.ltb_lt _ _) L). apply read_num_le; auto.
Qed.

Lemma cn3_read : forall g pos c l0 lcc ltx llong ldisp x cc comment long display,
  (n3_type c < 2 ^ 16 /\ n3_start c < 2 ^ 16 /\ n3_bits c < 2 ^ 16 /\ n3_signal c < 2 ^ 16 /\
   n3_offset c < 2 ^ 16 /\ n3_min c < 2 ^ 64 /\ n3_max c < 2 ^ 64 /\ n3_rate c < 2 ^ 64) ->
  str3_ok 32 (n3_short c) -> str3_ok 128 (n3_desc c) ->
  holds g pos (header3_bytes false ty_cn3 228 [l0; lcc; 0; 0; ltx] ++ cn3_body c llong ldisp ++ x) ->
  l0 < 2 ^ 32 -> lcc < 2 ^ 32 -> ltx < 2 ^ 32 -> llong < 2 ^ 32 -> ldisp < 2 ^ 32 ->
  read_ccx_opt g lcc = Ok cc -> read_text3 g ltx = Ok comment -> read_text3 g llong = Ok long ->
  read_text3 g ldisp = Ok display ->
  read_cn3 g pos = Ok (mkCn3 (n3_type c) (n3_short c) (n3_desc c) (n3_start c) (n3_bits c) (n3_signal c) (n3_valid c)
           (n3_min c) (n3_max c) (n3_rate c) (n3_offset c) comment long display cc, l0).
Proof.
  intros g pos c l0 lcc ltx llong ldisp x cc comment long display (B1 & B2 & B3 & B4 & B5 & B6 & B7 & B8)
    [P1 L1] [P2 L2] H B0 Bc Bt Bl Bd Rc Rt Rl Rd.
  destruct (block3_read g pos ty_cn3 228 [l0; lcc; 0; 0; ltx] (cn3_body c llong ldisp ++ x) cn3_type_ok ltac:(discriminate) H
    ltac:(reflexivity)) as [RH HB].
  { repeat constructor; auto. }
  cbn [length] in RH, HB. apply holds_app in HB as [HB HX]. rewrite cn3_body_length in HX.
  unfold read_cn3. rewrite RH. cbn [bind b_len].
  unfold cn3_body in HB. apply holds_app in HB as [A1 HB]. apply holds_app in HB as [A2 HB]. apply holds_app in HB as [A3 HB].
  rewrite le_bytes_length in A2, A3, HB. rewrite str_bytes_length in A3. repeat rewrite str_bytes_length in HB.
  rewrite (read_num_le _ _ 2 _ A1) by exact B1. cbn [bind].
  rewrite (read_str_written 32 _ _ _ P1 L1 A2), (read_str_written 128 _ _ _ P2 L2 A3).
  set (p := (pos + (4 + 4 * 5) + 2 + 32 + 128)%nat) in *.
  change (fields_bytes _) with (fields_bytes ([(2%nat, n3_start c); (2%nat, n3_bits c); (2%nat, n3_signal c); (2%nat, bool_num (n3_valid c));
                   (8%nat, n3_min c); (8%nat, n3_max c); (8%nat, n3_rate c)] ++
                   [(4%nat, w32 llong)] ++ [(4%nat, w32 ldisp)] ++ [(2%nat, n3_offset c)])) in HB.
  rewrite !fields_bytes_app in HB. apply holds_app in HB as [C1 HB]. apply holds_app in HB as [C2 HB]. apply holds_app in HB as [C3 C4].
  rewrite !fields_bytes_length in *. cbn [map fst list_sum fold_right] in C2, C3, C4.
  unfold fields_bytes in C2, C3, C4. cbn [map concat] in C2, C3, C4. rewrite app_nil_r in C2, C3, C4. rewrite w32_id in C2, C3 by auto.
  pose proof (read_seq_at _ g p C1) as RS. cbn [map fst snd list_sum fold_right] in RS. rewrite RS.
  2:{ repeat constructor; unfold field_ok; cbn [fst snd]; auto. exact (bool_num_small _). }
  cbn [bind nth].
  rewrite (read_more_at 4 218 228 _ _ llong ltac:(reflexivity) C2) by exact Bl. cbn [bind].
  replace (p + (2 + (2 + (2 + (2 + (8 + (8 + (8 + 0))))))) + (4 + 0))%nat with (p + (2 + (2 + (2 + (2 + (8 + (8 + (8 + 0))))))) + 4)%nat in C3, C4 by lia.
  rewrite (read_more_at 4 222 228 _ _ ldisp ltac:(reflexivity) C3) by exact Bd. cbn [bind].
  replace (p + (2 + (2 + (2 + (2 + (8 + (8 + (8 + 0))))))) + 4 + (4 + 0))%nat with (p + (2 + (2 + (2 + (2 + (8 + (8 + (8 + 0))))))) + 4 + 4)%nat in C4 by lia.
  rewrite (read_more_at 2 226 228 _ _ (n3_offset c) ltac:(reflexivity) C4) by exact B5. cbn [bind].
  destruct C4 as [C4 _]. rewrite le_bytes_length in C4.
  replace (N.to_nat (228 - 228)) with 0%nat by reflexivity. rewrite Nat.add_0_r, (proj2 (Nat.leb_le _ _) C4). cbn [bind].
  unfold link. cbn [b_links nth]. rewrite Rc. cbn [bind]. rewrite Rt. cbn [bind]. rewrite Rl. cbn [bind]. rewrite Rd. cbn [bind].
  rewrite bool_num_back. reflexivity.
Qed.

Lemma ok_inj : forall {A} (x y : A), Ok x = Ok y -> x = y.
Proof. intros A x y H. congruence. Qed.

Lemma zero_link : forall f ty size ls r, holds (f ++ header3_bytes false ty size (0 :: ls) ++ r) (length f + 4) (le_bytes 4 0).
Proof.
  intros. pose proof (header3_at ty size [] 0 ls) as E. cbn [app map concat] in E. rewrite E, app_nil_r, <- !app_assoc.
  set (a := str_bytes 2 ty ++ num_bytes false 2 size).
  replace (str_bytes 2 ty ++ num_bytes false 2 size ++ _) with (a ++ le_bytes 4 (w32 0) ++
     concat (map (fun l => num_bytes false 4 (w32 l)) ls) ++ r) by (unfold a; rewrite <- !app_assoc; reflexivity).
  rewrite (app_assoc f a). replace (length f + 4)%nat with (length (f ++ a)).
  - apply holds_end.
  - unfold a. rewrite !app_length, str_bytes_length, num_bytes_length. reflexivity.
Qed.

(** A block at the end of the file, read later. *)
Lemma block3_later : forall (f0 f : file) ty size ls r g n, (length f0 <= length f)%nat ->
  same_but3 (f ++ header3_bytes false ty size (0 :: ls) ++ r) g (length f0)
    (length (f ++ header3_bytes false ty size (0 :: ls) ++ r)) (length f) ->
  n < 2 ^ 32 -> holds g (length f + 4) (le_bytes 4 n) ->
  holds g (length f) (header3_bytes false ty size (n :: ls) ++ r).
Proof.
  intros f0 f ty size ls r g n L S B H. eapply block3_hole; [apply holds_tail|exact S|exact L| |exact B|exact H].
  rewrite !app_length, header3_length. cbn [length]. lia.
Qed.

Lemma holds_before : forall (f a s g : list N) pos, same_but3 (f ++ a ++ s) g (length f) (length (f ++ a ++ s)) pos ->
  (length f + length a <= pos)%nat -> (pos <= length g)%nat -> holds g (length f) a.
Proof.
  intros f a s g pos S L LG. destruct a as [|x a].
  - split; [cbn [length] in *; lia|]. intros i Hi. cbn in Hi. lia.
  - apply holds_len; [discriminate|]. intros i Hi. rewrite S.
    + rewrite nth_error_app2 by lia. replace (length f + i - length f)%nat with i by lia. apply nth_error_app1. exact Hi.
    + rewrite !app_length. lia.
    + lia.
Qed.

Lemma writes_cn3 : forall c c', cn3_as c c' -> writes3 write_cn3 read_cn3 c c'.
Proof.
  intros c c' (NB & (S1 & S2 & T1 & T2 & T3) & cc & A & ->) f NE.
  destruct (emits3_at _ _ _ f (emits_text3 _ T2) NE) as (x1 & l1 & W1 & R1). apply ok_inj in W1.
  destruct (emits3_at _ _ _ (f ++ x1) (emits_text3 _ T3)) as (x2 & l2 & W2 & R2).
  { rewrite app_length. lia. }
  apply ok_inj in W2.
  set (f2 := (f ++ x1) ++ x2) in *.
  destruct (child3 _ _ _ f2 ty_cn3 228 [0] [0; 0; 0] (cn3_body c l1 l2) (emits_ccx _ _ A)) as (x3 & lcc & W3 & K3 & R3).
  destruct (child3 _ _ _ f2 ty_cn3 228 [0; lcc; 0; 0] [] (cn3_body c l1 l2 ++ x3) (emits_text3 _ T1)) as (x4 & ltx & W4 & K4 & R4).
  apply ok_inj in W4. cbn [app length] in W3, K3, R3, W4, K4, R4. rewrite <- !(app_assoc (cn3_body c l1 l2)) in W4, K4.
  exists (f2 ++ header3_bytes false ty_cn3 228 [0; lcc; 0; 0; ltx] ++ cn3_body c l1 l2 ++ x3 ++ x4), (length f2).
  assert (L2 : length f2 = (length f + length x1 + length x2)%nat) by (unfold f2; rewrite !app_length; reflexivity).
  split.
  { unfold write_cn3. rewrite W1, W2, W3. cbn [bind]. rewrite K3, W4, K4. reflexivity. }
  split; [unfold f2; rewrite <- !app_assoc; eexists; reflexivity|]. split; [lia|].
  split; [rewrite !app_length, header3_length; cbn [length]; lia|].
  intros B. split; [apply zero_link|]. intros g n SB Bn Hn.
  pose proof B as LB. rewrite !app_length, header3_length, cn3_body_length in LB. cbn [length] in LB.
  assert (HG : holds g (length f2) (header3_bytes false ty_cn3 228 [n; lcc; 0; 0; ltx] ++ cn3_body c l1 l2 ++ x3 ++ x4)).
  { apply (block3_later f f2); auto. lia. }
  assert (HP : (length f2 <= length g)%nat) by (destruct HG as [HG _]; lia).
  pose proof HG as HG'. apply holds_app in HG' as [_ HG']. apply holds_app in HG' as [_ HG']. apply holds_app in HG' as [H3 H4].
  rewrite header3_length, cn3_body_length in H3, H4. cbn [length] in H3, H4.
  rewrite cn3_body_length in R3. rewrite app_length, cn3_body_length in R4. rewrite !app_length in R1. rewrite !app_length in R2.
  destruct R1 as [B1 R1]; [lia|]. destruct R2 as [B2 R2]; [lia|].
  destruct R3 as [B3 R3]; [lia|]. destruct R4 as [B4 R4]; [lia|].
  eapply cn3_read with (x := x3 ++ x4); eauto.
  - apply R4. rewrite Nat.add_assoc. exact H4.
  - apply R1. eapply holds_before with (pos := length f2) (s := x2 ++ header3_bytes false ty_cn3 228 [0; lcc; 0; 0; ltx] ++ cn3_body c l1 l2 ++ x3 ++ x4).
    + intros i Hi D. rewrite (app_assoc f x1) in Hi |- *. rewrite (app_assoc (f ++ x1) x2) in Hi |- *. fold f2 in Hi |- *.
      apply SB; [exact Hi|exact D].
    + lia.
    + exact HP.
  - apply R2. rewrite <- app_length.
    eapply holds_before with (pos := length f2) (s := header3_bytes false ty_cn3 228 [0; lcc; 0; 0; ltx] ++ cn3_body c l1 l2 ++ x3 ++ x4).
    + intros i Hi D. rewrite (app_assoc (f ++ x1) x2) in Hi |- *. fold f2 in Hi |- *. apply SB; [|exact D].
      split; [|apply Hi]. rewrite app_length in Hi. lia.
    + rewrite app_length. lia.
    + exact HP.
Qed.

(* ------------------------------------------------------------------ *)
(** ** Channel groups *)

Lemma cg3_type_ok : type_ok 2 ty_cg3.
Proof. split; [reflexivity|]. split; [|split; reflexivity]. intros Y; cbn in Y; decompose [or] Y; auto; discriminate. Qed.

Lemma cg3_body_length : forall g, length (cg3_body g) = 14%nat.
Proof. intros. unfold cg3_body. rewrite fields_bytes_length. reflexivity. Qed.

Lemma w16_small : forall n, w16 n < 2 ^ 16.
Proof. intros. unfold w16. apply N.mod_lt. discriminate. Qed.

Lemma writes_cg3 : forall fuel c c', cg3_as c c' -> cg3_fuel fuel c -> writes3 write_cg3 (read_cg3 fuel) c c'.
Proof.
  intros fuel c c' (B1 & B2 & B3 & TC & cns & A & ->) FU f NE.
  assert (A' : Forall2 (writes3 write_cn3 read_cn3) (g3_cns c) cns).
  { clear -A. induction A; constructor; auto. apply writes_cn3; auto. }
  destruct (child3 _ _ _ f ty_cg3 30 [0] [0] (cg3_body c) (emits_chain3 _ _ fuel _ _ A' FU)) as (x3 & lcn & W3 & K3 & R3).
  destruct (child3 _ _ _ f ty_cg3 30 [0; lcn] [] (cg3_body c ++ x3) (emits_text3 _ TC)) as (x4 & ltx & W4 & K4 & R4).
  apply ok_inj in W4. cbn [app length] in W3, K3, R3, W4, K4, R4. rewrite <- !(app_assoc (cg3_body c)) in W4, K4.
  exists (f ++ header3_bytes false ty_cg3 30 [0; lcn; ltx] ++ cg3_body c ++ x3 ++ x4), (length f).
  split.
  { unfold write_cg3. rewrite W3. cbn [bind]. rewrite K3, W4, K4. reflexivity. }
  split; [eexists; reflexivity|]. split; [lia|].
  split; [rewrite !app_length, header3_length; cbn [length]; lia|].
  intros B. split; [apply zero_link|]. intros g n SB Bn Hn.
  pose proof B as LB. rewrite !app_length, header3_length, cg3_body_length in LB. cbn [length] in LB.
  assert (HG : holds g (length f) (header3_bytes false ty_cg3 30 [n; lcn; ltx] ++ cg3_body c ++ x3 ++ x4)).
  { apply (block3_later f f); auto. }
  pose proof HG as HG'. apply holds_app in HG' as [_ HG']. apply holds_app in HG' as [HB HG']. apply holds_app in HG' as [H3 H4].
  rewrite header3_length in HB. rewrite header3_length, cg3_body_length in H3, H4. cbn [length] in HB, H3, H4.
  rewrite cg3_body_length in R3. rewrite app_length, cg3_body_length in R4.
  destruct R3 as [B4 R3]; [lia|]. destruct R4 as [B5 R4]; [lia|].
  destruct (block3_read g (length f) ty_cg3 30 [n; lcn; ltx] (cg3_body c ++ x3 ++ x4) cg3_type_ok ltac:(discriminate) HG
    ltac:(reflexivity)) as [RH _].
  { repeat constructor; auto. }
  cbn [length] in RH. unfold read_cg3. rewrite RH. cbn [bind b_len].
  unfold cg3_body in HB.
  change (fields_bytes _) with (fields_bytes ([(2%nat, g3_id c); (2%nat, w16 (N.of_nat (length (g3_cns c)))); (2%nat, g3_size c);
                (4%nat, g3_nof c)] ++ [(4%nat, w32 (g3_sr c))])) in HB.
  rewrite fields_bytes_app in HB. apply holds_app in HB as [C1 _].
  pose proof (read_seq_at _ g _ C1) as RS. cbn [map fst snd list_sum fold_right] in RS. rewrite RS.
  2:{ repeat constructor; unfold field_ok; cbn [fst snd]; auto. exact (w16_small _). }
  cbn [bind nth]. unfold read_more. cbn [N.ltb N.compare Pos.compare Pos.compare_cont bind]. unfold link. cbn [b_links nth].
  rewrite R4 by (rewrite Nat.add_assoc; exact H4). cbn [bind]. rewrite R3 by exact H3. reflexivity.
Qed.

(* ------------------------------------------------------------------ *)
(** ** Data groups *)

Lemma dg3_type_ok : type_ok 2 ty_dg3.
Proof. split; [reflexivity|]. split; [|split; reflexivity]. intros Y; cbn in Y; decompose [or] Y; auto; discriminate. Qed.

Lemma dg3_body_length : forall d, length (dg3_body d) = 8%nat.
Proof. intros. unfold dg3_body. rewrite fields_bytes_length. reflexivity. Qed.

Lemma Forall2_with : forall {A} (P : A -> Prop) (Q R : A -> A -> Prop) xs ys, Forall2 Q xs ys -> Forall P xs ->
  (forall x y, P x -> Q x y -> R x y) -> Forall2 R xs ys.
Proof.
  intros A P Q R xs ys F. induction F as [|x y xs ys H F IH]; intros FP I; constructor; inversion_clear FP; auto.
Qed.

Lemma writes_dgb3 : forall fuel d d', dgb3_as d d' -> dgb3_fuel fuel d -> writes3 write_dgb3 (read_dgb3 fuel) d d'.
Proof.
  intros fuel d d' (B1 & B2 & cgs & A & ->) [FU FUS] f NE.
  assert (A' : Forall2 (writes3 write_cg3 (read_cg3 fuel)) (d3_cgs d) cgs).
  { eapply Forall2_with; [exact A|exact FUS|]. intros x y P Q. apply writes_cg3; auto. }
  destruct (child3 _ _ _ f ty_dg3 28 [0] [0; d3_link d] (dg3_body d) (emits_chain3 _ _ fuel _ _ A' FU)) as (x3 & lcg & W3 & K3 & R3).
  cbn [app length] in W3, K3, R3.
  exists (f ++ header3_bytes false ty_dg3 28 [0; lcg; 0; d3_link d] ++ dg3_body d ++ x3), (length f).
  split.
  { unfold write_dgb3. rewrite W3. cbn [bind]. rewrite K3. reflexivity. }
  split; [eexists; reflexivity|]. split; [lia|].
  split; [rewrite !app_length, header3_length; cbn [length]; lia|].
  intros B. split; [apply zero_link|]. intros g n SB Bn Hn.
  pose proof B as LB. rewrite !app_length, header3_length, dg3_body_length in LB. cbn [length] in LB.
  assert (HG : holds g (length f) (header3_bytes false ty_dg3 28 [n; lcg; 0; d3_link d] ++ dg3_body d ++ x3)).
  { apply (block3_later f f); auto. }
  pose proof HG as HG'. apply holds_app in HG' as [_ HG']. apply holds_app in HG' as [HB H3].
  rewrite header3_length in HB. rewrite header3_length, dg3_body_length in H3. cbn [length] in HB, H3.
  rewrite dg3_body_length in R3. destruct R3 as [B4 R3]; [lia|].
  destruct (block3_read g (length f) ty_dg3 28 [n; lcg; 0; d3_link d] (dg3_body d ++ x3) dg3_type_ok ltac:(discriminate) HG
    ltac:(reflexivity)) as [RH _].
  { repeat constructor; auto. }
  cbn [length] in RH. unfold read_dgb3. rewrite RH. cbn [bind].
  unfold dg3_body in HB.
  change (fields_bytes _) with (fields_bytes ([(2%nat, w16 (N.of_nat (length (d3_cgs d)))); (2%nat, ids_for d)] ++ [(4%nat, 0)])) in HB.
  rewrite fields_bytes_app in HB. apply holds_app in HB as [C1 _].
  pose proof (read_seq_at _ g _ C1) as RS. cbn [map fst snd list_sum fold_right] in RS. rewrite RS.
  2:{ repeat constructor; unfold field_ok; cbn [fst snd]; auto.
      - exact (w16_small _).
      - unfold ids_for. destruct (1 <? _); reflexivity. }
  cbn [bind nth]. unfold link. cbn [b_links nth].
  rewrite R3 by exact H3. cbn [bind]. unfold ids_for. rewrite w16_id by exact B2. reflexivity.
Qed.

(* ------------------------------------------------------------------ *)
(** ** The header *)

Lemma hd3_type_ok : type_ok 2 ty_hd3.
Proof. split; [reflexivity|]. split; [|split; reflexivity]. intros Y; cbn in Y; decompose [or] Y; auto; discriminate. Qed.

Lemma hd3_body_length : forall h, length (hd3_body h) = 192%nat.
Proof.
  intros. unfold hd3_body. rewrite !app_length, le_bytes_length, !str_bytes_length, fields_bytes_length. reflexivity.
Qed.

Lemma put_size3 : forall (f : file) ty s s' ls r,
  put (f ++ header3_bytes false ty s ls ++ r) (length f + 2) (num_bytes false 2 s') =
  f ++ header3_bytes false ty s' ls ++ r.
Proof.
  intros. unfold header3_bytes. rewrite <- !app_assoc. rewrite !(app_assoc f (str_bytes 2 ty)).
  replace (length f + 2)%nat with (length (f ++ str_bytes 2 ty)) by (rewrite app_length, str_bytes_length; reflexivity).
  apply put_mid. rewrite !num_bytes_length. reflexivity.
Qed.

Lemma read_nums_one : forall k ks done size f p v, done < size -> holds f p (le_bytes k v) -> v < 256 ^ N.of_nat k ->
  read_nums (k :: ks) done size f p =
  let* '(vs, d, q) := read_nums ks (done + N.of_nat k) size f (p + k) in Ok (v :: vs, d, q).
Proof.
  intros k ks done size f p v L H B. cbn [read_nums]. rewrite (read_more_at k done size f p v L H B). cbn [bind].
  rewrite (proj2 (N.ltb_lt _ _) L). reflexivity.
Qed.

Lemma read_strs_one : forall k ks done size f p s, done < size -> holds f p (str_bytes k s) -> str3_ok k s ->
  read_strs (k :: ks) done size f p =
  let '(ss, d, q) := read_strs ks (done + N.of_nat k) size f (p + k) in (s :: ss, d, q).
Proof.
  intros k ks done size f p s L H [P LS]. cbn [read_strs]. rewrite (proj2 (N.ltb_lt _ _) L).
  rewrite (read_str_written k s _ _ P LS H). reflexivity.
Qed.

Lemma hd3_fields : forall h g p, time3_ok (h3_time h) ->
  str3_ok 32 (h3_author h) -> str3_ok 32 (h3_org h) -> str3_ok 32 (h3_project h) -> str3_ok 32 (h3_subject h) ->
  holds g p (hd3_body h) ->
  read_nums [2]%nat 16 208 g p = Ok ([w16 (N.of_nat (length (h3_dgs h)))], 18, (p + 2)%nat) /\
  read_strs [10; 8; 32; 32; 32; 32]%nat 18 208 g (p + 2) =
    ([t3_date (h3_time h); t3_time (h3_time h); h3_author h; h3_org h; h3_project h; h3_subject h], 164, (p + 148)%nat) /\
  read_nums [8; 2; 2]%nat 164 208 g (p + 148) =
    Ok ([t3_ns (h3_time h); t3_offset (h3_time h); t3_quality (h3_time h)], 176, (p + 160)%nat) /\
  read_strs [32]%nat 176 208 g (p + 160) = ([t3_timer (h3_time h)], 208, (p + 192)%nat).
Proof.
  intros h g p (D1 & D2 & D3 & D4 & D5 & D6) S1 S2 S3 S4 H. unfold hd3_body in H. cbv zeta in H.
  rewrite !fields_bytes_cons in H. change (fields_bytes []) with (@nil N) in H. rewrite app_nil_r in H. rewrite <- !app_assoc in H.
  do 10 match type of H with holds _ _ (?a ++ _) => apply holds_app in H as [?A H];
     first [rewrite le_bytes_length in H|rewrite str_bytes_length in H] end.
  split.
  { rewrite (read_nums_one 2 [] 16 208 g p _ ltac:(reflexivity) A (w16_small _)). reflexivity. }
  split.
  { rewrite (read_strs_one 10 _ 18 208 _ _ _ ltac:(reflexivity) A0 D1).
    rewrite (read_strs_one 8 _ (18 + N.of_nat 10) 208 _ _ _ ltac:(reflexivity) A1 D2).
    rewrite (read_strs_one 32 _ (18 + N.of_nat 10 + N.of_nat 8) 208 _ _ _ ltac:(reflexivity) A2 S1).
    rewrite (read_strs_one 32 _ (18 + N.of_nat 10 + N.of_nat 8 + N.of_nat 32) 208 _ _ _ ltac:(reflexivity) A3 S2).
    rewrite (read_strs_one 32 _ (18 + N.of_nat 10 + N.of_nat 8 + N.of_nat 32 + N.of_nat 32) 208 _ _ _ ltac:(reflexivity) A4 S3).
    rewrite (read_strs_one 32 _ (18 + N.of_nat 10 + N.of_nat 8 + N.of_nat 32 + N.of_nat 32 + N.of_nat 32) 208 _ _ _ ltac:(reflexivity) A5 S4).
    cbn [read_strs]. f_equal. lia. }
  replace (p + 2 + 10 + 8 + 32 + 32 + 32 + 32)%nat with (p + 148)%nat in * by lia.
  split.
  { rewrite (read_nums_one 8 _ 164 208 _ _ _ ltac:(reflexivity) A6 D4).
    rewrite (read_nums_one 2 _ (164 + N.of_nat 8) 208 _ _ _ ltac:(reflexivity) A7 D5).
    rewrite (read_nums_one 2 _ (164 + N.of_nat 8 + N.of_nat 2) 208 _ _ _ ltac:(reflexivity) A8 D6).
    cbn [read_nums bind]. f_equal. f_equal. lia. }
  replace (p + 148 + 8 + 2 + 2)%nat with (p + 160)%nat in * by lia.
  rewrite (read_strs_one 32 _ 176 208 _ _ _ ltac:(reflexivity) H D3). cbn [read_strs]. f_equal. lia.
Qed.

Lemma hd3_written : forall fuel h h', hd3_as h h' -> hd3_fuel fuel h -> forall f, (0 < length f)%nat ->
  exists x, write_hd3 h f = Ok (f ++ x, length f) /\ (208 <= length x)%nat /\
    (N.of_nat (length (f ++ x)) < 2 ^ 32 -> forall g, holds g (length f) x -> read_hd3 fuel g (length f) = Ok h').
Proof.
  intros fuel h h' (TM & (S1 & S2 & S3 & S4) & TC & dgs & A & ->) [FU FUS] f NE.
  assert (A' : Forall2 (writes3 write_dgb3 (read_dgb3 fuel)) (h3_dgs h) dgs).
  { eapply Forall2_with; [exact A|exact FUS|]. intros x y P Q. apply writes_dgb3; auto. }
  destruct (child3 _ _ _ f ty_hd3 208 [0] [0] (hd3_body h) (emits_text3 _ TC)) as (x3 & ltx & W3 & K3 & R3).
  destruct (child3 _ _ _ f ty_hd3 208 [] [ltx; 0] (hd3_body h ++ x3) (emits_chain3 _ _ fuel _ _ A' FU)) as (x4 & ldg & W4 & K4 & R4).
  apply ok_inj in W3. cbn [app length] in W3, K3, R3, W4, K4, R4. rewrite <- !(app_assoc (hd3_body h)) in W4, K4.
  exists (header3_bytes false ty_hd3 208 [ldg; ltx; 0] ++ hd3_body h ++ x3 ++ x4). split.
  { unfold write_hd3, update_size3. cbn [b_pos b_len b_type b_links].
    replace (length f =? 0)%nat with false by (symmetry; apply Nat.eqb_neq; lia).
    rewrite app_length, header3_length, hd3_body_length. cbn [length].
    change (202 =? w32 (N.of_nat (4 + 4 * 3 + 192))) with false. cbv iota. cbn [bind].
    change (w16 (N.of_nat (4 + 4 * 3 + 192))) with 208.
    rewrite put_size3, W3, K3, W4. cbn [bind]. rewrite K4. reflexivity. }
  split; [rewrite !app_length, header3_length, hd3_body_length; cbn [length]; lia|].
  intros B g HG.
  pose proof B as LB. rewrite !app_length, header3_length, hd3_body_length in LB. cbn [length] in LB.
  pose proof HG as HG'. apply holds_app in HG' as [_ HG']. apply holds_app in HG' as [HB HG']. apply holds_app in HG' as [H3 H4].
  rewrite header3_length in HB. rewrite header3_length, hd3_body_length in H3, H4. cbn [length] in HB, H3, H4.
  rewrite hd3_body_length in R3. rewrite app_length, hd3_body_length in R4.
  destruct R3 as [B4 R3]; [lia|]. destruct R4 as [B5 R4]; [lia|].
  destruct (block3_read g (length f) ty_hd3 208 [ldg; ltx; 0] (hd3_body h ++ x3 ++ x4) hd3_type_ok ltac:(discriminate) HG
    ltac:(reflexivity)) as [RH _].
  { repeat constructor; auto. }
  cbn [length] in RH. unfold read_hd3. rewrite RH. cbn [bind b_len].
  destruct (hd3_fields h g _ TM S1 S2 S3 S4 HB) as (E1 & E2 & E3 & E4).
  rewrite E1. cbn [bind]. rewrite E2, E3. cbn [bind]. rewrite E4. unfold link. cbn [b_links nth].
  rewrite R3 by exact H3. cbn [bind]. rewrite R4 by (rewrite Nat.add_assoc; exact H4). cbn [bind].
  destruct (h3_time h). reflexivity.
Qed.
