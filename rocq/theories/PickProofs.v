(** Proofs about the reader's choice of observers. *)
From Coq Require Import Lia Sorted.
From Verif Require Import Base ChannelModel ChannelSpec ChannelProofs XmlModel XmlSpec XmlProofs3
  PickModel PickSpec.
Local Open Scope N_scope.

Lemma lor1_lt : forall a k, 1 <= k -> a < 2 ^ k -> N.lor a 1 < 2 ^ k.
Proof.
  intros a k Hk Ha.
  destruct (N.eq_dec a 0) as [->|Hn].
  - cbn. apply N.pow_gt_1; lia.
  - assert (L: N.lor a 1 <> 0) by (intros E; apply N.lor_eq_0_l in E; lia).
    apply N.log2_lt_pow2; [lia|]. rewrite N.log2_lor. change (N.log2 1) with 0.
    rewrite N.max_0_r. apply N.log2_lt_pow2; lia.
Qed.

Lemma loop_bound : forall n le raw first byte bit v k u,
  v < 2 ^ k -> (first = true -> v = 0) -> (first = false -> 1 <= k) ->
  raw_loop le raw n first byte bit v = Some u ->
  u < 2 ^ (N.max k 1 - 1 + (if first then 0 else 1) + N.of_nat n) \/ (n = 0%nat /\ u = v).
Proof.
  induction n as [|n IH]; intros le raw first byte bit v k u Hv Hf Hk E.
  - right. cbn in E. injection E as E. auto.
  - left. cbn [raw_loop] in E. destruct (rd raw byte) as [b|]; [|discriminate].
    set (v1 := if first then v else w64 (N.shiftl v 1)) in *.
    set (k1 := N.max k 1 + (if first then 0 else 1)).
    assert (H1: v1 < 2 ^ k1).
    { unfold v1, k1. destruct first.
      - rewrite (Hf eq_refl). assert (0 < 2 ^ (N.max k 1 + 0)) by (apply N.neq_0_lt_0, N.pow_nonzero; lia). lia.
      - specialize (Hk eq_refl). rewrite N.max_l by lia. rewrite N.shiftl_mul_pow2.
        rewrite N.pow_add_r. eapply N.le_lt_trans; [apply N.mod_le; lia|].
        change (2 ^ 1) with 2. lia. }
    assert (K: 1 <= k1) by (unfold k1; destruct first; lia).
    set (v2 := if N.testbit b (Z.to_N bit) then N.lor v1 1 else v1) in *.
    assert (H2: v2 < 2 ^ k1).
    { unfold v2. destruct (N.testbit b (Z.to_N bit)); [apply lor1_lt|]; auto. }
    assert (G: forall byte' bit', raw_loop le raw n false byte' bit' v2 = Some u ->
      u < 2 ^ (N.max k 1 - 1 + (if first then 0 else 1) + N.of_nat (S n))).
    { intros byte' bit' E'.
      destruct (IH le raw false byte' bit' v2 k1 u H2 ltac:(discriminate) ltac:(auto) E') as [G|[-> ->]].
      - eapply N.lt_le_trans; [exact G|]. apply N.pow_le_mono_r; [lia|]. unfold k1. destruct first; lia.
      - eapply N.lt_le_trans; [exact H2|]. apply N.pow_le_mono_r; [lia|]. unfold k1. destruct first; lia. }
    destruct (bit - 1 <? 0)%Z; eapply G; eauto.
Qed.

Lemma loop_bound64 : forall n le raw first byte bit v u,
  v < 2 ^ 64 -> raw_loop le raw n first byte bit v = Some u -> u < 2 ^ 64.
Proof.
  induction n as [|n IH]; intros le raw first byte bit v u Hv E.
  - cbn [raw_loop] in E. injection E as <-. exact Hv.
  - cbn [raw_loop] in E. destruct (rd raw byte) as [b|]; [|discriminate].
    set (v1 := if first then v else w64 (N.shiftl v 1)) in *.
    assert (H1: v1 < 2 ^ 64) by (unfold v1; destruct first; [exact Hv|apply N.mod_lt; discriminate]).
    set (v2 := if N.testbit b (Z.to_N bit) then N.lor v1 1 else v1) in *.
    assert (H2: v2 < 2 ^ 64)
      by (unfold v2; destruct (N.testbit b (Z.to_N bit)); [apply lor1_lt; [discriminate|]|]; exact H1).
    destruct (bit - 1 <? 0)%Z; eapply IH; eauto.
Qed.

Lemma raw_bound : forall le start len raw u, raw_to_unsigned le start len raw = Some u ->
  u < 2 ^ len /\ u < 2 ^ 64.
Proof.
  intros le start len raw u E. unfold raw_to_unsigned in E. split.
  - destruct (loop_bound (N.to_nat len) le raw true _ _ 0 0 u ltac:(reflexivity) ltac:(auto) ltac:(discriminate) E)
      as [G|[_ ->]].
    + replace (N.max 0 1 - 1 + 0 + N.of_nat (N.to_nat len)) with len in G by lia. exact G.
    + apply N.neq_0_lt_0, N.pow_nonzero. discriminate.
  - exact (loop_bound64 (N.to_nat len) le raw true _ _ 0 u ltac:(reflexivity) E).
Qed.

Lemma size_bits : forall c k, data_bytes c <= k -> ch_bits c <= 8 * k.
Proof.
  intros c k H. unfold data_bytes in H. pose proof (N.div_mod (ch_bits c) 8 ltac:(discriminate)) as D.
  pose proof (N.mod_lt (ch_bits c) 8 ltac:(discriminate)) as M.
  destruct (N.ltb_spec 0 (ch_bits c mod 8)); lia.
Qed.

Lemma get_unsigned_bound : forall c rec idx u, get_unsigned c rec idx = Ok u ->
  u < 2 ^ ch_bits c /\ u < 2 ^ 64.
Proof.
  intros c rec idx u E. unfold get_unsigned in E.
  destruct (range_ok c rec idx); [|discriminate].
  assert (G: forall le, lift (raw_to_unsigned le (bit_offset c idx) (ch_bits c) rec) = Ok u ->
    u < 2 ^ ch_bits c /\ u < 2 ^ 64).
  { intros le E'. unfold lift in E'. destruct (raw_to_unsigned le _ _ _) as [x|] eqn:R; [|discriminate].
    injection E' as ->. exact (raw_bound _ _ _ _ _ R). }
  destruct (is_vlsd (ch_type c)); [eapply G; eauto|].
  destruct (ch_dtype c); try discriminate; eapply G; eauto.
Qed.

Lemma get_signed_bound : forall c rec idx z, get_signed c rec idx = Ok z ->
  z = 0%Z \/ (1 <= ch_bits c <= 64 /\
              (- Z.of_N (2 ^ (ch_bits c - 1)) <= z < Z.of_N (2 ^ (ch_bits c - 1)))%Z).
Proof.
  intros c rec idx z E. unfold get_signed in E.
  destruct (range_ok c rec idx); [|discriminate].
  destruct (raw_to_signed _ _ _ _) as [x|] eqn:R; [|discriminate]. injection E as ->.
  unfold raw_to_signed in R. destruct (raw_to_unsigned _ _ _ _) as [u|] eqn:U; [|discriminate].
  destruct ((1 <=? ch_bits c) && (ch_bits c <=? 64)) eqn:B; injection R as <-; [right|left; reflexivity].
  apply andb_prop in B. destruct B as [B1 B2]. apply N.leb_le in B1, B2. split; [lia|].
  exact (twos_range _ _ B1 (proj1 (raw_bound _ _ _ _ _ U))).
Qed.

Lemma get_float_bound : forall h2d f2d c rec idx d, get_float h2d f2d c rec idx = Ok d ->
  (ch_bits c = 16 /\ exists u, u < 2 ^ 16 /\ d = h2d u) \/
  (ch_bits c = 32 /\ exists u, u < 2 ^ 32 /\ d = f2d u) \/ ch_bits c = 64.
Proof.
  intros h2d f2d c rec idx d E. unfold get_float in E.
  destruct (range_ok c rec idx); [|discriminate]. cbv zeta in E.
  destruct (raw_to_unsigned _ _ _ _) as [u|] eqn:R.
  2:{ destruct (ch_bits c =? 16), (ch_bits c =? 32), (ch_bits c =? 64); discriminate. }
  pose proof (proj1 (raw_bound _ _ _ _ _ R)) as B. cbn [lift bind] in E.
  destruct (N.eqb_spec (ch_bits c) 16) as [E1|_].
  { left. split; [exact E1|]. exists u. rewrite E1 in B. split; [exact B|]. injection E as <-. reflexivity. }
  destruct (N.eqb_spec (ch_bits c) 32) as [E1|_].
  { right. left. split; [exact E1|]. exists u. rewrite E1 in B. split; [exact B|]. injection E as <-. reflexivity. }
  destruct (N.eqb_spec (ch_bits c) 64) as [E1|_]; [|discriminate]. right. right. exact E1.
Qed.

Lemma pow_mono : forall a b x, a <= b -> x < 2 ^ a -> x < 2 ^ b.
Proof. intros a b x H L. eapply N.lt_le_trans; [exact L|]. apply N.pow_le_mono_r; [discriminate|exact H]. Qed.

Lemma keep_signed : forall w b z, 1 <= w <= 64 -> 1 <= b <= w ->
  (- Z.of_N (2 ^ (b - 1)) <= z < Z.of_N (2 ^ (b - 1)))%Z -> twos w (to_u64 z mod 2 ^ w) = z.
Proof.
  intros w b z Hw Hb Hz. apply twos_of_signed; [exact Hw|].
  assert (2 ^ (b - 1) <= 2 ^ (w - 1)) by (apply N.pow_le_mono_r; lia). lia.
Qed.

Lemma keep_zero : forall w, 1 <= w <= 64 -> twos w (to_u64 0 mod 2 ^ w) = 0%Z.
Proof. intros w Hw. apply (keep_signed w 1); [exact Hw|lia|cbn; lia]. Qed.

Lemma keeps : forall h2d f2d d2f c rec idx s v ok, casts_exact h2d f2d d2f ->
  pick_store c = Some s -> get_channel h2d f2d c rec idx = Ok (v, ok) ->
  keep_as f2d d2f s v = v.
Proof.
  intros h2d f2d d2f c rec idx s v ok [C1 C2] P G. unfold pick_store in P. unfold get_channel in G.
  assert (KU: forall u, get_unsigned c rec idx = Ok u ->
    (if data_bytes c =? 1 then KeepU 8 else if data_bytes c =? 2 then KeepU 16
     else if data_bytes c =? 4 then KeepU 32 else KeepU 64) = s -> keep_as f2d d2f s (VU u) = VU u).
  { intros u U <-. destruct (get_unsigned_bound _ _ _ _ U) as [B1 B2].
    destruct (N.eqb_spec (data_bytes c) 1) as [E|_].
    { cbn [keep_as]. rewrite N.mod_small; [reflexivity|]. apply (pow_mono (ch_bits c)); [|exact B1].
      pose proof (size_bits c 1). lia. }
    destruct (N.eqb_spec (data_bytes c) 2) as [E|_].
    { cbn [keep_as]. rewrite N.mod_small; [reflexivity|]. apply (pow_mono (ch_bits c)); [|exact B1].
      pose proof (size_bits c 2). lia. }
    destruct (N.eqb_spec (data_bytes c) 4) as [E|_].
    { cbn [keep_as]. rewrite N.mod_small; [reflexivity|]. apply (pow_mono (ch_bits c)); [|exact B1].
      pose proof (size_bits c 4). lia. }
    cbn [keep_as]. rewrite N.mod_small; [reflexivity|exact B2]. }
  assert (KS: forall z, get_signed c rec idx = Ok z ->
    (if data_bytes c <=? 1 then KeepS 8 else if data_bytes c <=? 2 then KeepS 16
     else if data_bytes c <=? 4 then KeepS 32 else KeepS 64) = s -> keep_as f2d d2f s (VS z) = VS z).
  { intros z U <-. destruct (get_signed_bound _ _ _ _ U) as [->|[B1 B2]].
    { destruct (data_bytes c <=? 1), (data_bytes c <=? 2), (data_bytes c <=? 4);
        cbn [keep_as]; rewrite keep_zero by lia; reflexivity. }
    destruct (N.leb_spec (data_bytes c) 1) as [E|_].
    { cbn [keep_as]. rewrite (keep_signed 8 (ch_bits c)); [reflexivity|lia| |exact B2].
      pose proof (size_bits c 1 E). lia. }
    destruct (N.leb_spec (data_bytes c) 2) as [E|_].
    { cbn [keep_as]. rewrite (keep_signed 16 (ch_bits c)); [reflexivity|lia| |exact B2].
      pose proof (size_bits c 2 E). lia. }
    destruct (N.leb_spec (data_bytes c) 4) as [E|_].
    { cbn [keep_as]. rewrite (keep_signed 32 (ch_bits c)); [reflexivity|lia| |exact B2].
      pose proof (size_bits c 4 E). lia. }
    cbn [keep_as]. rewrite (keep_signed 64 (ch_bits c)); [reflexivity|lia|lia|exact B2]. }
  assert (KF: forall d, get_float h2d f2d c rec idx = Ok d ->
    (if data_bytes c <=? 4 then KeepFloat else KeepDouble) = s -> keep_as f2d d2f s (VF d) = VF d).
  { intros d U <-. destruct (N.leb_spec (data_bytes c) 4) as [E|_]; [|reflexivity].
    cbn [keep_as]. destruct (get_float_bound _ _ _ _ _ _ U) as [[_ [u [Hu ->]]]|[[_ [u [Hu ->]]]|E64]].
    - rewrite C2 by exact Hu. reflexivity.
    - rewrite C1 by exact Hu. reflexivity.
    - pose proof (size_bits c 4 E). lia. }
  destruct (ch_dtype c); try discriminate;
    [destruct (get_unsigned c rec idx) as [x| |] eqn:U|destruct (get_unsigned c rec idx) as [x| |] eqn:U
    |destruct (get_signed c rec idx) as [x| |] eqn:U|destruct (get_signed c rec idx) as [x| |] eqn:U
    |destruct (get_float h2d f2d c rec idx) as [x| |] eqn:U|destruct (get_float h2d f2d c rec idx) as [x| |] eqn:U];
    try discriminate; cbn [bind] in G; injection G as <- _; injection P as P; eauto.
Qed.

(* ------------------------------------------------------------------ *)

(** What the search has found among the places before (g, i). *)
Definition sound (gs : list cgroup) (name : list N) (bound : nat * nat) (st : found) : Prop :=
  match snd st with
  | None => fst st = 0 /\ (forall p k, before p bound -> ~ named gs name (fst p) (snd p) k)
  | Some q => before q bound /\ named gs name (fst q) (snd q) (fst st) /\
      (forall p k, before p bound -> named gs name (fst p) (snd p) k ->
         k <= fst st /\ (k = fst st -> p = q \/ before p q))
  end.

Lemma named_fun : forall gs name g i a b, named gs name g i a -> named gs name g i b -> a = b.
Proof. intros gs name g i a b (x & n & H1 & _ & _ & <-) (y & m & H2 & _ & _ & <-). congruence. Qed.

Lemma before_next : forall p g i, before p (g, S i) -> before p (g, i) \/ p = (g, i).
Proof.
  intros [a b] g i [H|[H1 H2]]; cbn in *; [left; left; exact H|]. subst a.
  destruct (Nat.eq_dec b i) as [->|]; [right; reflexivity|left; right; cbn; lia].
Qed.

Lemma before_grow : forall p g i, before p (g, i) -> before p (g, S i).
Proof. intros [a b] g i [H|[H1 H2]]; [left; exact H|right; cbn in *; lia]. Qed.

Lemma step_sound : forall gs name g i x n st,
  nth_error gs g = Some x -> nth_error (g_names x) i = Some n ->
  sound gs name (g, i) st ->
  sound gs name (g, S i)
    (if ieq name n then if fst st <=? g_samples x then (g_samples x, Some (g, i)) else st else st).
Proof.
  intros gs name g i x n st Hx Hn S.
  destruct (ieq name n) eqn:E.
  - apply ieq_alike in E.
    assert (Nm: named gs name g i (g_samples x)) by (exists x, n; auto).
    destruct (N.leb_spec (fst st) (g_samples x)) as [L|L].
    + unfold sound. cbn [snd fst]. split; [right; cbn; lia|]. split; [exact Nm|].
      intros p k B Np. destruct (before_next _ _ _ B) as [B'| ->].
      * unfold sound in S. destruct (snd st) as [q|].
        -- destruct S as (_ & _ & S). destruct (S p k B' Np) as [K _]. split; [lia|].
           intros _. right. exact B'.
        -- destruct S as [_ S]. exfalso. exact (S p k B' Np).
      * cbn in Np. rewrite (named_fun _ _ _ _ _ _ Np Nm). split; [lia|auto].
    + unfold sound in *. destruct (snd st) as [q|].
      * destruct S as (Bq & Nq & S). split; [apply before_grow; exact Bq|]. split; [exact Nq|].
        intros p k B Np. destruct (before_next _ _ _ B) as [B'| ->]; [exact (S p k B' Np)|].
        cbn in Np. rewrite (named_fun _ _ _ _ _ _ Np Nm). split; [lia|]. intros K. exfalso. lia.
      * destruct S as [Z _]. exfalso. lia.
  - assert (F: forall k, ~ named gs name g i k).
    { intros k (y & m & H1 & H2 & A & _). rewrite Hx in H1. injection H1 as <-. rewrite Hn in H2.
      injection H2 as <-. apply ieq_alike in A. congruence. }
    unfold sound in *. destruct (snd st) as [q|].
    + destruct S as (Bq & Nq & S). split; [apply before_grow; exact Bq|]. split; [exact Nq|].
      intros p k B Np. destruct (before_next _ _ _ B) as [B'| ->]; [exact (S p k B' Np)|].
      exfalso. exact (F k Np).
    + destruct S as [Z S]. split; [exact Z|]. intros p k B Np.
      destruct (before_next _ _ _ B) as [B'| ->]; [exact (S p k B' Np)|exact (F k Np)].
Qed.

Lemma names_sound : forall gs name g x r i st, nth_error gs g = Some x ->
  (forall j, nth_error (g_names x) (i + j) = nth_error r j) ->
  sound gs name (g, i) st ->
  sound gs name (g, i + length r)%nat (search_names name (g_samples x) g i r st).
Proof.
  intros gs name g x r. induction r as [|n r IH]; intros i st Hx Hr S; cbn [search_names length].
  - replace (i + 0)%nat with i by lia. exact S.
  - replace (i + Datatypes.S (length r))%nat with (Datatypes.S i + length r)%nat by lia. apply IH; [exact Hx| |].
    + intros j. replace (Datatypes.S i + j)%nat with (i + Datatypes.S j)%nat by lia. rewrite Hr. reflexivity.
    + apply step_sound; [exact Hx| |exact S]. specialize (Hr 0%nat). rewrite Nat.add_0_r in Hr. exact Hr.
Qed.

Lemma group_end : forall gs name g x st, nth_error gs g = Some x ->
  sound gs name (g, length (g_names x)) st -> sound gs name (S g, 0%nat) st.
Proof.
  intros gs name g x st Hx S.
  assert (B: forall p k, before p (Datatypes.S g, 0%nat) -> named gs name (fst p) (snd p) k ->
    before p (g, length (g_names x))).
  { intros [a b] k [H|[_ H]] (y & n & H1 & H2 & _); cbn in *; [|lia].
    destruct (Nat.eq_dec a g) as [->|]; [|left; cbn; lia].
    rewrite Hx in H1. injection H1 as <-. right. split; [reflexivity|]. cbn. apply nth_error_Some. congruence. }
  unfold sound in *. destruct (snd st) as [q|].
  - destruct S as (Bq & Nq & S). split; [|split; [exact Nq|]].
    + left. cbn. destruct Bq as [H|[H _]]; cbn in H; lia.
    + intros p k Bp Np. exact (S p k (B p k Bp Np) Np).
  - destruct S as [Z S]. split; [exact Z|]. intros p k Bp Np. exact (S p k (B p k Bp Np) Np).
Qed.

Lemma groups_sound : forall gs name r g st,
  (forall j, nth_error gs (g + j) = nth_error r j) ->
  sound gs name (g, 0%nat) st ->
  sound gs name (g + length r, 0)%nat (search_groups name g r st).
Proof.
  intros gs name r. induction r as [|x r IH]; intros g st Hr S; cbn [search_groups length].
  - replace (g + 0)%nat with g by lia. exact S.
  - replace (g + Datatypes.S (length r))%nat with (Datatypes.S g + length r)%nat by lia.
    assert (Hx: nth_error gs g = Some x)
      by (specialize (Hr 0%nat); rewrite Nat.add_0_r in Hr; exact Hr).
    apply IH.
    + intros j. replace (Datatypes.S g + j)%nat with (g + Datatypes.S j)%nat by lia. rewrite Hr. reflexivity.
    + apply (group_end _ _ _ x); [exact Hx|].
      exact (names_sound gs name g x (g_names x) 0 st Hx (fun j => eq_refl) S).
Qed.

Lemma search_sound : forall gs name,
  sound gs name (length gs, 0%nat) (search_groups name 0 gs (0, None)).
Proof.
  intros gs name. apply (groups_sound gs name gs 0 (0, None)); [reflexivity|].
  unfold sound. cbn. split; [reflexivity|]. intros [a b] k [H|[_ H]]; cbn in H; lia.
Qed.

Lemma named_before : forall gs name g i k, named gs name g i k -> before (g, i) (length gs, 0%nat).
Proof. intros gs name g i k (x & n & H & _). left. cbn. apply nth_error_Some. congruence. Qed.

(* ------------------------------------------------------------------ *)

Lemma in_list : forall gs g0 g i, In (g, i) (data_group_list g0 gs) <->
  (g0 <= g)%nat /\ exists x, nth_error gs (g - g0) = Some x /\ g_samples x <> 0 /\
    (i < length (g_names x))%nat.
Proof.
  induction gs as [|y gs IH]; intros g0 g i; cbn [data_group_list].
  - split; [intros []|]. intros [_ (x & H & _)]. destruct (g - g0)%nat; discriminate.
  - rewrite in_app_iff, IH.
    assert (D: In (g, i) (if g_samples y =? 0 then [] else group_list g0 y) <->
      g = g0 /\ g_samples y <> 0 /\ (i < length (g_names y))%nat).
    { destruct (N.eqb_spec (g_samples y) 0) as [E|E].
      - split; [intros []|]. intros (_ & H & _). contradiction.
      - unfold group_list. rewrite in_map_iff. split.
        + intros (j & H & I). injection H as <- <-. apply in_seq in I. repeat split; [exact E|lia].
        + intros (-> & _ & L). exists i. split; [reflexivity|]. apply in_seq. lia. }
    rewrite D. split.
    + intros [(-> & H)|[L (x & H1 & H2)]].
      * split; [lia|]. exists y. rewrite Nat.sub_diag. cbn. auto.
      * split; [lia|]. exists x. replace (g - g0)%nat with (S (g - S g0)) by lia. auto.
    + intros [L (x & H1 & H2)]. destruct (Nat.eq_dec g g0) as [->|].
      * left. rewrite Nat.sub_diag in H1. cbn in H1. injection H1 as <-. auto.
      * right. split; [lia|]. exists x. replace (g - g0)%nat with (S (g - S g0)) in H1 by lia. auto.
Qed.

Lemma sorted_group : forall g a n, StronglySorted before (map (fun i => (g, i)) (seq a n)).
Proof.
  intros g a n. revert a. induction n as [|n IH]; intros a; cbn [seq map]; constructor; [apply IH|].
  apply Forall_forall. intros p I. apply in_map_iff in I. destruct I as (j & <- & I). apply in_seq in I.
  right. cbn. lia.
Qed.

Lemma sorted_app : forall (a b : list (nat * nat)), StronglySorted before a -> StronglySorted before b ->
  (forall p q, In p a -> In q b -> before p q) -> StronglySorted before (a ++ b).
Proof.
  induction a as [|p a IH]; intros b Ha Hb H; [exact Hb|]. cbn. apply StronglySorted_inv in Ha.
  destruct Ha as [Ha Hp]. constructor.
  - apply IH; [exact Ha|exact Hb|]. intros x q I J. apply H; [right; exact I|exact J].
  - apply Forall_app. split; [exact Hp|]. apply Forall_forall. intros q J. apply H; [left; reflexivity|exact J].
Qed.

Lemma list_sorted : forall gs g0, StronglySorted before (data_group_list g0 gs).
Proof.
  induction gs as [|y gs IH]; intros g0; cbn [data_group_list]; [constructor|].
  apply sorted_app; [|apply IH|].
  - destruct (g_samples y =? 0); [constructor|apply sorted_group].
  - intros [a b] [c d] I J. apply in_list in J. destruct J as [J _]. left. cbn.
    destruct (g_samples y =? 0); [destruct I|]. unfold group_list in I. apply in_map_iff in I.
    destruct I as (j & E & _). injection E as <- _. lia.
Qed.
