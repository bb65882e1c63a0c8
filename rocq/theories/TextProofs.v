(** Proofs about the text conversions. *)
From Verif Require Import Base TextModel TextSpec.
From Coq Require Import Lia.
Local Open Scope N_scope.

Lemma lor_add : forall n a k, a < 2 ^ n -> N.lor a (k * 2 ^ n) = a + k * 2 ^ n.
Proof.
  intros n a k L. assert (D : N.land a (k * 2 ^ n) = 0).
  { apply N.bits_inj. intros i. rewrite N.land_spec, N.bits_0.
    destruct (N.lt_ge_cases i n) as [C|C].
    - rewrite N.mul_pow2_bits_low by auto. apply andb_false_r.
    - rewrite (testbit_small a i n) by auto. reflexivity. }
  rewrite <- N.lxor_lor by auto. symmetry. apply N.add_nocarry_lxor. auto.
Qed.

Lemma low6 : forall x, N.land x 63 = x mod 64.
Proof. intros. change 63 with (N.ones 6). rewrite N.land_ones. reflexivity. Qed.

Lemma low6_bound : forall x, x mod 64 < 64.
Proof. intros. apply N.mod_lt. discriminate. Qed.

Lemma w8_small : forall x, x < 256 -> w8 x = x.
Proof. intros. unfold w8. apply N.mod_small. auto. Qed.

Lemma trail_byte : forall x, w8 (N.lor (N.land x 63) 128) = 128 + x mod 64.
Proof.
  intros x. rewrite low6. pose proof (low6_bound x).
  change 128 with (2 * 2 ^ 6) at 1. rewrite lor_add by (change (2 ^ 6) with 64; auto).
  change (2 * 2 ^ 6) with 128. rewrite w8_small by lia. lia.
Qed.

Lemma cp_bytes_utf8 : forall cp, cp < 2 ^ 21 -> cp_bytes cp = utf8 cp.
Proof.
  intros cp L. unfold cp_bytes, utf8. rewrite !trail_byte, !N.shiftr_div_pow2.
  change (2 ^ 6) with 64. change (2 ^ 12) with 4096. change (2 ^ 18) with 262144. change (2 ^ 21) with 2097152 in L.
  destruct (N.ltb_spec cp 128); [rewrite w8_small by lia; reflexivity|].
  destruct (N.ltb_spec cp 2048).
  { assert (cp / 64 < 32) by (apply N.div_lt_upper_bound; lia).
    change 192 with (6 * 2 ^ 5) at 1. rewrite lor_add by (change (2 ^ 5) with 32; auto).
    change (6 * 2 ^ 5) with 192. rewrite w8_small by lia. f_equal. lia. }
  destruct (N.ltb_spec cp 65536).
  { assert (cp / 4096 < 16) by (apply N.div_lt_upper_bound; lia).
    change 224 with (14 * 2 ^ 4) at 1. rewrite lor_add by (change (2 ^ 4) with 16; auto).
    change (14 * 2 ^ 4) with 224. rewrite w8_small by lia. f_equal. lia. }
  assert (cp / 262144 < 8) by (apply N.div_lt_upper_bound; lia).
  change 240 with (30 * 2 ^ 3) at 1. rewrite lor_add by (change (2 ^ 3) with 8; auto).
  change (30 * 2 ^ 3) with 240. rewrite w8_small by lia. f_equal. lia.
Qed.

Lemma cp_bytes_length : forall cp, length (cp_bytes cp) = cp_len cp.
Proof.
  intros. unfold cp_bytes, cp_len. destruct (cp <? 128), (cp <? 2048), (cp <? 65536); reflexivity.
Qed.

Lemma cp_len_pos : forall cp, (1 <= cp_len cp)%nat.
Proof. intros. unfold cp_len. destruct (cp <? 128), (cp <? 2048), (cp <? 65536); lia. Qed.

Definition enc (cps : list N) : list N := concat (map cp_bytes cps).

Lemma estimate : forall cps it, to8_32 cps (mkOut [] it 0) = Ok (mkOut [] (it + length (enc cps)) 0).
Proof.
  induction cps as [|cp r IH]; intros it; cbn [to8_32].
  - unfold enc. cbn. rewrite Nat.add_0_r. reflexivity.
  - unfold append. cbn [o_remain o_mem o_it]. pose proof (cp_len_pos cp).
    destruct (Nat.ltb_spec 0 (cp_len cp)); [|lia]. cbn [bind]. rewrite IH.
    unfold enc. cbn [map concat]. rewrite app_length, cp_bytes_length. do 2 f_equal. lia.
Qed.

Lemma wr_mid : forall pre old post new, length new = length old ->
  wr (pre ++ old ++ post) (N.of_nat (length pre)) new = Some (pre ++ new ++ post).
Proof.
  intros pre old post new L. unfold wr. rewrite !app_length.
  destruct (N.leb_spec (N.of_nat (length pre) + N.of_nat (length new)) (N.of_nat (length pre + (length old + length post)))); [|lia].
  f_equal. unfold splice. rewrite Nat2N.id.
  rewrite firstn_app, firstn_all, Nat.sub_diag. cbn [firstn]. rewrite app_nil_r. do 2 f_equal.
  rewrite L, app_assoc, <- app_length. rewrite skipn_app, skipn_all, Nat.sub_diag. reflexivity.
Qed.

Lemma fill : forall cps pre n, (length (enc cps) <= n)%nat ->
  to8_32 cps (mkOut (pre ++ repeat 0 (length (enc cps)) ++ [0]) (length pre) n) =
  Ok (mkOut (pre ++ enc cps ++ [0]) (length (pre ++ enc cps)) n).
Proof.
  induction cps as [|cp r IH]; intros pre n L; cbn [to8_32].
  - unfold enc. cbn. rewrite app_nil_r. reflexivity.
  - unfold enc in *. cbn [map concat] in *. rewrite app_length, cp_bytes_length in *.
    unfold append. cbn [o_remain o_mem o_it].
    destruct (Nat.ltb_spec n (cp_len cp)); [lia|].
    rewrite repeat_app, <- !app_assoc. rewrite wr_mid by (rewrite repeat_length; apply cp_bytes_length).
    cbn [bind]. replace (length pre + cp_len cp)%nat with (length (pre ++ cp_bytes cp)) by (rewrite app_length, cp_bytes_length; reflexivity).
    rewrite (app_assoc pre), IH by lia. rewrite <- !app_assoc. reflexivity.
Qed.

Lemma fill_all : forall cps,
  bind (bind (to8_32 cps (mkOut [] 0 0)) finish_out) (fun '(_, n) =>
  let len := pred n in
  bind (bind (to8_32 cps (mkOut (repeat 0 (S len)) 0 len)) finish_out) (fun '(mem, _) =>
  Ok (firstn len mem))) = Ok (enc cps).
Proof.
  intros cps. rewrite estimate. cbn [bind finish_out o_remain Nat.eqb o_mem o_it pred Nat.add].
  set (n := length (enc cps)).
  pose proof (fill cps [] n (le_n _)) as F. fold n in F. cbn [app length] in F.
  replace (repeat 0 n ++ [0]) with (repeat 0 (S n)) in F by (rewrite <- repeat_cons; reflexivity).
  cbv zeta. rewrite F. cbn [bind]. unfold finish_out. cbn [o_remain o_mem o_it].
  destruct (Nat.eqb_spec n 0) as [E|E].
  - cbn [bind]. f_equal. rewrite E. cbn [firstn]. destruct (enc cps); [auto|discriminate].
  - pose proof (wr_mid (enc cps) [0] [] [0] eq_refl) as W. rewrite app_nil_r in W. rewrite W. cbn [bind].
    f_equal. unfold n. rewrite firstn_app, firstn_all, Nat.sub_diag. cbn. apply app_nil_r.
Qed.

Lemma wide32_enc : forall ws, wide32_to_utf8 ws = Ok (enc (before_nul ws)).
Proof. intros. apply fill_all. Qed.

Lemma enc_utf8 : forall cps, Forall (fun cp => cp < 2 ^ 21) cps -> enc cps = utf8_text cps.
Proof.
  intros cps F. unfold enc, utf8_text. f_equal. apply map_ext_in. intros a IN.
  apply cp_bytes_utf8. rewrite Forall_forall in F. auto.
Qed.

Lemma before_nul_id : forall s, ~ In 0 s -> before_nul s = s.
Proof.
  induction s as [|c r IH]; intros H; cbn [before_nul]; auto.
  destruct (N.eqb_spec c 0) as [->|C]; [exfalso; apply H; left; auto|]. f_equal. apply IH. intros X. apply H. right. auto.
Qed.

Lemma before_nul_forall : forall P s, Forall P s -> Forall P (before_nul s).
Proof.
  intros P s H. induction H; cbn [before_nul]; auto. destruct (x =? 0); auto.
Qed.

Lemma before_nul_no : forall s, ~ In 0 (before_nul s).
Proof.
  induction s as [|c r IH]; cbn [before_nul]; auto. destruct (N.eqb_spec c 0); [intros []|].
  intros [X|X]; [congruence|auto].
Qed.

Lemma before_nul_cut : forall s, s = before_nul s \/ exists t, s = before_nul s ++ 0 :: t.
Proof.
  induction s as [|c r IH]; cbn [before_nul]; [left; auto|].
  destruct (N.eqb_spec c 0) as [->|C]; [right; exists r; reflexivity|].
  destruct IH as [E|[t E]]; [left; congruence|right; exists t]. cbn [app]. congruence.
Qed.

(* ------------------------------------------------------------------ *)
(** ** Decoding *)

Lemma at_app : forall pre l post i, (i < length l)%nat -> at_ (pre ++ l ++ post) (length pre + i) = Ok (nth i l 0).
Proof.
  intros pre l post i L. unfold at_. rewrite nth_error_app2 by lia.
  replace (length pre + i - length pre)%nat with i by lia. rewrite nth_error_app1 by auto.
  rewrite (nth_error_nth' l 0) by auto. reflexivity.
Qed.

Lemma mask_shift : forall b k n, N.land (N.shiftl b k) (N.ones (n + k)) = (b mod 2 ^ n) * 2 ^ k.
Proof.
  intros b k n. rewrite N.land_ones, N.shiftl_mul_pow2.
  rewrite N.pow_add_r. rewrite N.mul_mod_distr_r; try (apply N.pow_nonzero; discriminate). reflexivity.
Qed.

Lemma next_utf8 : forall pre cp post, cp < 2 ^ 21 ->
  next8 (pre ++ utf8 cp ++ post) (length pre) = Ok (cp, (length pre + length (utf8 cp))%nat).
Proof.
  intros pre cp post L. change (2 ^ 21) with 2097152 in L. unfold next8, utf8.
  assert (A : forall l i, (i < length l)%nat -> at_ (pre ++ l ++ post) (length pre + i) = Ok (nth i l 0)) by (intros; apply at_app; auto).
  assert (A0 : forall l, (0 < length l)%nat -> at_ (pre ++ l ++ post) (length pre) = Ok (nth 0 l 0))
    by (intros; rewrite <- (Nat.add_0_r (length pre)); apply A; auto).
  assert (T : forall x, (128 + x mod 64) mod 2 ^ 6 = x mod 64).
  { intros x. change (2 ^ 6) with 64. change 128 with (2 * 64). rewrite N.add_comm, N.mod_add by discriminate. apply N.mod_mod. discriminate. }
  assert (T' : forall x, N.land (128 + x mod 64) 63 = x mod 64) by (intros; rewrite low6; apply (T x)).
  destruct (N.ltb_spec cp 128).
  { rewrite A0 by (cbn; lia). cbn [nth bind]. unfold seq_len. destruct (N.ltb_spec cp 128); [|lia]. reflexivity. }
  destruct (N.ltb_spec cp 2048).
  { assert (D : cp / 64 < 32) by (apply N.div_lt_upper_bound; lia).
    rewrite A0 by (cbn; lia). cbn [nth bind].
    replace (seq_len (192 + cp / 64)) with 2%nat.
    2:{ unfold seq_len. destruct (N.ltb_spec (192 + cp / 64) 128); [lia|].
        rewrite N.shiftr_div_pow2. change (2 ^ 5) with 32.
        replace ((192 + cp / 64) / 32) with 6; [reflexivity|].
        apply (N.div_unique _ _ _ (cp / 64)); lia. }
    rewrite (A _ 1%nat) by (cbn; lia). cbn [nth bind length]. rewrite T'.
    change 2047 with (N.ones (5 + 6)). rewrite mask_shift.
    change (2 ^ 5) with 32. change (2 ^ 6) with 64.
    replace ((192 + cp / 64) mod 32) with (cp / 64).
    2:{ symmetry. change 192 with (6 * 32). rewrite N.add_comm, N.mod_add by discriminate. apply N.mod_small. auto. }
    pose proof (N.div_mod cp 64 ltac:(discriminate)). f_equal. f_equal. lia. }
  destruct (N.ltb_spec cp 65536).
  { assert (D : cp / 4096 < 16) by (apply N.div_lt_upper_bound; lia).
    rewrite A0 by (cbn; lia). cbn [nth bind].
    replace (seq_len (224 + cp / 4096)) with 3%nat.
    2:{ unfold seq_len. destruct (N.ltb_spec (224 + cp / 4096) 128); [lia|].
        rewrite !N.shiftr_div_pow2. change (2 ^ 5) with 32. change (2 ^ 4) with 16.
        replace ((224 + cp / 4096) / 32) with 7 by (apply (N.div_unique _ _ _ (cp / 4096)); lia).
        replace ((224 + cp / 4096) / 16) with 14 by (apply (N.div_unique _ _ _ (cp / 4096)); lia). reflexivity. }
    rewrite (A _ 1%nat) by (cbn; lia). rewrite (A _ 2%nat) by (cbn; lia). cbn [nth bind length]. rewrite T'.
    change 65535 with (N.ones (4 + 12)). change 4095 with (N.ones (6 + 6)). rewrite !mask_shift, T.
    change (2 ^ 4) with 16. change (2 ^ 12) with 4096. change (2 ^ 6) with 64.
    replace ((224 + cp / 4096) mod 16) with (cp / 4096).
    2:{ symmetry. change 224 with (14 * 16). rewrite N.add_comm, N.mod_add by discriminate. apply N.mod_small. auto. }
    pose proof (N.div_mod cp 64 ltac:(discriminate)). pose proof (N.div_mod (cp / 64) 64 ltac:(discriminate)) as E.
    rewrite N.div_div in E by discriminate. change (64 * 64) with 4096 in E. f_equal. f_equal. lia. }
  assert (D : cp / 262144 < 8) by (apply N.div_lt_upper_bound; lia).
  rewrite A0 by (cbn; lia). cbn [nth bind].
  replace (seq_len (240 + cp / 262144)) with 4%nat.
  2:{ unfold seq_len. destruct (N.ltb_spec (240 + cp / 262144) 128); [lia|].
      rewrite !N.shiftr_div_pow2. change (2 ^ 5) with 32. change (2 ^ 4) with 16. change (2 ^ 3) with 8.
      replace ((240 + cp / 262144) / 32) with 7 by (apply (N.div_unique _ _ _ (16 + cp / 262144)); lia).
      replace ((240 + cp / 262144) / 16) with 15 by (apply (N.div_unique _ _ _ (cp / 262144)); lia).
      replace ((240 + cp / 262144) / 8) with 30 by (apply (N.div_unique _ _ _ (cp / 262144)); lia). reflexivity. }
  rewrite (A _ 1%nat) by (cbn; lia). rewrite (A _ 2%nat) by (cbn; lia). rewrite (A _ 3%nat) by (cbn; lia). cbn [nth bind length]. rewrite T'.
  change 2097151 with (N.ones (3 + 18)). change 262143 with (N.ones (6 + 12)). change 4095 with (N.ones (6 + 6)).
  rewrite !mask_shift, !T.
  change (2 ^ 3) with 8. change (2 ^ 18) with 262144. change (2 ^ 12) with 4096. change (2 ^ 6) with 64.
  replace ((240 + cp / 262144) mod 8) with (cp / 262144).
  2:{ symmetry. change 240 with (30 * 8). rewrite N.add_comm, N.mod_add by discriminate. apply N.mod_small. auto. }
  pose proof (N.div_mod cp 64 ltac:(discriminate)). pose proof (N.div_mod (cp / 64) 64 ltac:(discriminate)) as E.
  rewrite N.div_div in E by discriminate. change (64 * 64) with 4096 in E.
  pose proof (N.div_mod (cp / 4096) 64 ltac:(discriminate)) as E2.
  rewrite N.div_div in E2 by discriminate. change (4096 * 64) with 262144 in E2. f_equal. f_equal. lia.
Qed.

Lemma utf8_nonempty : forall cp, (1 <= length (utf8 cp))%nat.
Proof. intros. unfold utf8. destruct (cp <? 128), (cp <? 2048), (cp <? 65536); cbn; lia. Qed.

Lemma points_utf8 : forall cps pre post fuel, Forall (fun cp => cp < 2 ^ 21) cps -> (length cps <= fuel)%nat ->
  points fuel (pre ++ utf8_text cps ++ post) (length pre) (length pre + length (utf8_text cps)) = Ok cps.
Proof.
  induction cps as [|cp r IH]; intros pre post fuel F L.
  - cbn. rewrite Nat.add_0_r. destruct fuel; cbn [points]; rewrite Nat.ltb_irrefl; reflexivity.
  - apply Forall_cons_iff in F as [F1 F2]. cbn [length] in L. destruct fuel as [|fuel]; [lia|]. cbn [points].
    unfold utf8_text in *. cbn [map concat]. rewrite app_length. pose proof (utf8_nonempty cp).
    destruct (Nat.ltb_spec (length pre) (length pre + (length (utf8 cp) + length (concat (map utf8 r))))); [|lia].
    rewrite <- app_assoc. rewrite next_utf8 by auto. cbn [bind].
    specialize (IH (pre ++ utf8 cp) post fuel F2 ltac:(lia)). rewrite app_length, <- app_assoc in IH.
    rewrite Nat.add_assoc, IH. reflexivity.
Qed.

Lemma store32_all : forall cps pre, store32 cps (pre ++ repeat 0 (S (length cps))) (length pre) = Ok (pre ++ cps ++ [0]).
Proof.
  induction cps as [|cp r IH]; intros pre; cbn [store32 length].
  - cbn [repeat]. pose proof (wr_mid pre [0] [] [0] eq_refl) as W. rewrite app_nil_r in W. rewrite W. reflexivity.
  - change (repeat 0 (S (S (length r)))) with ([0] ++ repeat 0 (S (length r))).
    rewrite (wr_mid pre [0] _ [cp] eq_refl).
    replace (S (length pre)) with (length (pre ++ [cp])) by (rewrite app_length; cbn; lia).
    rewrite app_assoc, IH, <- app_assoc. reflexivity.
Qed.

Lemma utf8_no_nul : forall cp, cp <> 0 -> ~ In 0 (utf8 cp).
Proof.
  intros cp NZ. unfold utf8. destruct (cp <? 128); [intros [X|[]]; congruence|].
  destruct (cp <? 2048); [|destruct (cp <? 65536)]; cbn [In]; lia.
Qed.

Lemma utf8_text_no_nul : forall cps, ~ In 0 cps -> ~ In 0 (utf8_text cps).
Proof.
  intros cps H IN. unfold utf8_text in IN. apply in_concat in IN as (l & L1 & L2).
  apply in_map_iff in L1 as (cp & <- & L1). revert L2. apply utf8_no_nul. intros ->. auto.
Qed.

Lemma before_nul_app : forall a t, ~ In 0 a -> before_nul (a ++ 0 :: t) = a.
Proof.
  induction a as [|c a IH]; intros t H; cbn [app before_nul]; [reflexivity|].
  destruct (N.eqb_spec c 0) as [->|C]; [exfalso; apply H; left; auto|]. f_equal. apply IH. intros X. apply H. right. auto.
Qed.

Lemma utf8_text_len : forall cps, (length cps <= length (utf8_text cps))%nat.
Proof.
  induction cps as [|cp r IH]; [cbn; lia|]. unfold utf8_text in *. cbn [map concat length]. rewrite app_length.
  pose proof (utf8_nonempty cp). lia.
Qed.

Lemma wide32_of_utf8 : forall cps s, Forall (fun cp => cp < 2 ^ 21) cps -> before_nul s = utf8_text cps ->
  utf8_to_wide32 s = Ok cps.
Proof.
  intros cps s F B. unfold utf8_to_wide32. rewrite B.
  destruct (before_nul_cut s) as [E|[t E]]; rewrite B in E; rewrite E.
  - pose proof (points_utf8 cps [] [0] (length (utf8_text cps)) F (utf8_text_len cps)) as P.
    cbn [app length Nat.add] in P. rewrite P. cbn [bind]. 
    pose proof (store32_all cps []) as S. cbn [app length] in S. rewrite S. cbn [bind].
    f_equal. rewrite firstn_app, firstn_all, Nat.sub_diag. cbn. apply app_nil_r.
  - pose proof (points_utf8 cps [] (0 :: t ++ [0]) (length (utf8_text cps)) F (utf8_text_len cps)) as P.
    cbn [app length Nat.add] in P. rewrite <- app_assoc. cbn [app]. rewrite P. cbn [bind]. 
    pose proof (store32_all cps []) as S. cbn [app length] in S. rewrite S. cbn [bind].
    f_equal. rewrite firstn_app, firstn_all, Nat.sub_diag. cbn. apply app_nil_r.
Qed.

Lemma before_nul_utf8 : forall cps, before_nul (utf8_text cps) = utf8_text (before_nul cps).
Proof.
  induction cps as [|cp r IH]; [reflexivity|]. unfold utf8_text in *. cbn [map concat before_nul].
  destruct (N.eqb_spec cp 0) as [->|C]; [reflexivity|]. cbn [map concat]. rewrite <- IH.
  pose proof (utf8_no_nul cp C) as H. revert H. generalize (utf8 cp) as a. generalize (concat (map utf8 r)) as b. clear.
  intros b a. induction a as [|x a IHa]; intros H; cbn [app before_nul]; [reflexivity|].
  destruct (N.eqb_spec x 0) as [->|X]; [exfalso; apply H; left; auto|]. f_equal. apply IHa. intros Y. apply H. right. auto.
Qed.

(* ------------------------------------------------------------------ *)
(** ** Bytes read *)

Lemma at_ok : forall mem i, (i < length mem)%nat -> exists b, at_ mem i = Ok b.
Proof.
  intros mem i L. unfold at_. destruct (nth_error mem i) eqn:E; [eauto|]. apply nth_error_None in E. lia.
Qed.

Lemma next_safe : forall mem it lead, nth_error mem it = Some lead -> (it + seq_len lead <= length mem)%nat ->
  exists cp it', next8 mem it = Ok (cp, it') /\ (it < it')%nat.
Proof.
  intros mem it lead H L. unfold next8. unfold at_ at 1. rewrite H. cbn [bind].
  destruct (seq_len lead) as [|[|[|[|[|n]]]]] eqn:E; try (eexists _, _; split; [reflexivity|lia]).
  - destruct (at_ok mem (it + 1) ltac:(lia)) as [b1 ->]. cbn [bind]. eexists _, _. split; [reflexivity|lia].
  - destruct (at_ok mem (it + 1) ltac:(lia)) as [b1 ->]. destruct (at_ok mem (it + 2) ltac:(lia)) as [b2 ->].
    cbn [bind]. eexists _, _. split; [reflexivity|lia].
  - destruct (at_ok mem (it + 1) ltac:(lia)) as [b1 ->]. destruct (at_ok mem (it + 2) ltac:(lia)) as [b2 ->].
    destruct (at_ok mem (it + 3) ltac:(lia)) as [b3 ->]. cbn [bind]. eexists _, _. split; [reflexivity|lia].
Qed.

Lemma points_safe : forall fuel mem it end_, (end_ < length mem)%nat ->
  (forall i lead, (i < end_)%nat -> nth_error mem i = Some lead -> (i + seq_len lead <= length mem)%nat) ->
  (end_ - it <= fuel)%nat ->
  exists cps, points fuel mem it end_ = Ok cps.
Proof.
  induction fuel as [|k IH]; intros mem it end_ L H F; cbn [points];
    (destruct (Nat.ltb_spec it end_); [|eexists; reflexivity]).
  - eexists. reflexivity.
  - destruct (nth_error mem it) as [lead|] eqn:E; [|apply nth_error_None in E; lia].
    destruct (next_safe mem it lead E (H it lead ltac:(lia) E)) as (cp & it' & -> & LT). cbn [bind].
    destruct (IH mem it' end_ L H ltac:(lia)) as [cps ->]. cbn [bind]. eexists. reflexivity.
Qed.

Lemma wide32_safe : forall s,
  (forall i lead, nth_error (before_nul s) i = Some lead -> (i + seq_len lead <= length s + 1)%nat) ->
  exists cps, utf8_to_wide32 s = Ok cps.
Proof.
  intros s H. unfold utf8_to_wide32.
  assert (LB : (length (before_nul s) <= length s)%nat).
  { clear. induction s as [|c r IH]; cbn [before_nul]; auto. destruct (c =? 0); cbn [length]; lia. }
  destruct (points_safe (length (before_nul s)) (s ++ [0]) 0 (length (before_nul s))) as [cps ->].
  - rewrite app_length. cbn [length]. lia.
  - intros i lead L E. rewrite app_length. cbn [length]. apply H.
    destruct (before_nul_cut s) as [X|[t X]]; rewrite X in E; [rewrite nth_error_app1 in E by lia; rewrite <- X in E; rewrite <- X; exact E|].
    rewrite <- app_assoc, nth_error_app1 in E by auto. exact E.
  - lia.
  - cbn [bind]. pose proof (store32_all cps []) as S. cbn [app length] in S. rewrite S. cbn [bind]. eexists. reflexivity.
Qed.

(* ------------------------------------------------------------------ *)
(** ** UTF-16 *)

Lemma pair_value : forall cp, 65536 <= cp <= 1114111 ->
  w32 (w32 (N.shiftl (55296 + (cp - 65536) / 1024) 10) + (56320 + (cp - 65536) mod 1024)
       + (2 ^ 32 + 65536 - N.shiftl 55296 10 - 56320)) = cp.
Proof.
  intros cp H. set (q := (cp - 65536) / 1024). set (r := (cp - 65536) mod 1024).
  assert (E : cp - 65536 = 1024 * q + r) by (apply N.div_mod; discriminate).
  assert (R : r < 1024) by (apply N.mod_lt; discriminate).
  assert (Q : q < 1024) by (apply N.div_lt_upper_bound; lia).
  rewrite !N.shiftl_mul_pow2. change (2 ^ 10) with 1024.
  unfold w32. change (2 ^ 32) with 4294967296.
  rewrite (N.mod_small ((55296 + q) * 1024)) by lia.
  replace ((55296 + q) * 1024 + (56320 + r) + (4294967296 + 65536 - 55296 * 1024 - 56320))
    with (cp + 1 * 4294967296) by lia.
  rewrite N.mod_add by discriminate. apply N.mod_small. lia.
Qed.

Lemma utf16_len : forall cp, (1 <= length (utf16 cp) <= 2)%nat.
Proof. intros. unfold utf16. destruct (cp <? 65536); cbn; lia. Qed.

Lemma points16_utf16 : forall cps pre post fuel, Forall scalar cps -> (length (utf16_text cps) <= fuel)%nat ->
  points16 fuel (pre ++ utf16_text cps ++ post) (length pre) (length pre + length (utf16_text cps)) = Ok cps.
Proof.
  induction cps as [|cp r IH]; intros pre post fuel F L.
  - cbn. rewrite Nat.add_0_r. destruct fuel; cbn [points16]; rewrite Nat.eqb_refl; reflexivity.
  - apply Forall_cons_iff in F as [F1 F2]. unfold utf16_text in *. cbn [map concat] in *. rewrite app_length in *.
    pose proof (utf16_len cp) as UL. destruct fuel as [|fuel]; [lia|]. cbn [points16].
    destruct (Nat.eqb_spec (length pre) (length pre + (length (utf16 cp) + length (concat (map utf16 r))))); [lia|].
    destruct (Nat.ltb_spec (length pre + (length (utf16 cp) + length (concat (map utf16 r)))) (length pre)); [lia|].
    rewrite <- app_assoc.
    specialize (IH (pre ++ utf16 cp) post fuel F2 ltac:(lia)). rewrite app_length, <- app_assoc in IH.
    rewrite Nat.add_assoc.
    assert (A0 : at_ (pre ++ utf16 cp ++ concat (map utf16 r) ++ post) (length pre) = Ok (nth 0 (utf16 cp) 0)).
    { pose proof (at_app pre (utf16 cp) (concat (map utf16 r) ++ post) 0 ltac:(lia)) as A. rewrite Nat.add_0_r in A. exact A. }
    rewrite A0. cbn [bind]. unfold utf16 in *. destruct (N.ltb_spec cp 65536) as [C|C]; cbn [nth length] in *.
    + destruct ((55296 <=? cp) && (cp <=? 56319)) eqn:S.
      { apply andb_true_iff in S as [S1 S2]. apply N.leb_le in S1. apply N.leb_le in S2. destruct F1; lia. }
      rewrite IH. reflexivity.
    + assert (S : (cp - 65536) / 1024 < 1024) by (apply N.div_lt_upper_bound; [discriminate|]; destruct F1; lia).
      replace ((55296 <=? 55296 + (cp - 65536) / 1024) && (55296 + (cp - 65536) / 1024 <=? 56319)) with true.
      2:{ symmetry. apply andb_true_iff. split; apply N.leb_le; lia. }
      pose proof (at_app pre [55296 + (cp - 65536) / 1024; 56320 + (cp - 65536) mod 1024] (concat (map utf16 r) ++ post) 1 ltac:(cbn; lia)) as A1.
      unfold utf16 in A1. rewrite A1. cbn [bind nth]. rewrite IH. cbn [bind]. rewrite pair_value by (destruct F1; lia).
      reflexivity.
Qed.

Lemma utf16_no_nul : forall cps, ~ In 0 cps -> ~ In 0 (utf16_text cps).
Proof.
  intros cps H IN. unfold utf16_text in IN. apply in_concat in IN as (l & L1 & L2).
  apply in_map_iff in L1 as (cp & <- & L1). unfold utf16 in L2.
  destruct (cp <? 65536); cbn [In] in L2; [destruct L2 as [->|[]]; auto|]. lia.
Qed.

Lemma scalar_small : forall cp, scalar cp -> cp < 2 ^ 21.
Proof. intros cp [H|H]; change (2 ^ 21) with 2097152; lia. Qed.

Lemma wide16_utf8 : forall cps, Forall scalar cps -> ~ In 0 cps -> wide16_to_utf8 (utf16_text cps) = Ok (utf8_text cps).
Proof.
  intros cps F H. unfold wide16_to_utf8. rewrite before_nul_id by (apply utf16_no_nul; auto).
  pose proof (points16_utf16 cps [] [0] _ F (le_n _)) as P. cbn [app length Nat.add] in P. rewrite P. cbn [bind].
  rewrite fill_all. rewrite enc_utf8; auto. eapply Forall_impl; [|exact F]. intros. apply scalar_small. auto.
Qed.

(** Text values. *)
Lemma units_of_bytes : forall (big : bool) us (t : list N), ~ In 0 us -> Forall (fun u => u < 2 ^ 16) us ->
  (t = [] \/ exists r, t = 0 :: 0 :: r) -> units_of big (bytes16 big us ++ t) = us.
Proof.
  intros big us t. induction us as [|u us IH]; intros H F T.
  - cbn [bytes16 map concat app]. destruct T as [->|[r ->]]; [reflexivity|]. cbn [units_of]. destruct big; reflexivity.
  - apply Forall_cons_iff in F as [F1 F2].
    assert (NZ : u <> 0) by (intros ->; apply H; left; auto).
    specialize (IH (fun X => H (or_intror X)) F2 T). unfold bytes16 in *. cbn [map concat].
    assert (E : exists a b, (if big then be_bytes 2 u else le_bytes 2 u) = [a; b] /\ (if big then be_num [a; b] else le_num [a; b]) = u).
    { destruct big.
      - pose proof (be_num_bytes 2 u) as X. rewrite N.mod_small in X by exact F1.
        pose proof (be_bytes_length 2 u). destruct (be_bytes 2 u) as [|a [|b [|]]]; try discriminate. eauto.
      - pose proof (le_num_bytes 2 u) as X. rewrite N.mod_small in X by exact F1.
        pose proof (le_bytes_length 2 u). destruct (le_bytes 2 u) as [|a [|b [|]]]; try discriminate. eauto. }
    destruct E as (a & b & E1 & E2). rewrite E1. cbn [app units_of]. rewrite E2.
    destruct (N.eqb_spec u 0); [contradiction|]. f_equal. exact IH.
Qed.

Lemma text16 : forall (big : bool) us (t : list N), ~ In 0 us -> Forall (fun u => u < 2 ^ 16) us ->
  (t = [] \/ exists r, t = 0 :: 0 :: r) ->
  text_of (if big then 3 else 2) (bytes16 big us ++ t) = Ok (utf8_text us).
Proof.
  intros big us t H F T.
  assert (E : utf16_to_utf8 us = Ok (utf8_text us)).
  { destruct us; [reflexivity|]. unfold utf16_to_utf8. rewrite wide32_enc, before_nul_id by auto.
    rewrite enc_utf8; auto. eapply Forall_impl; [|exact F]. intros x X. change (2 ^ 16) with 65536 in X. change (2 ^ 21) with 2097152. cbv beta in X. lia. }
  destruct big; unfold text_of; rewrite units_of_bytes; auto.
Qed.

(* ------------------------------------------------------------------ *)
(** ** Latin-1 *)

Lemma latin1_utf8 : forall s, bytes_ok s -> latin1_to_utf8 s = utf8_text s.
Proof.
  intros s F. unfold latin1_to_utf8, utf8_text. f_equal. apply map_ext_in. intros ch IN.
  assert (B : ch < 256) by (unfold bytes_ok in F; rewrite Forall_forall in F; apply F; auto).
  unfold latin1_char, utf8. destruct (N.ltb_spec ch 128); [reflexivity|].
  destruct (N.ltb_spec ch 2048); [|lia].
  rewrite (N.lor_comm 128), trail_byte, (N.lor_comm 192), N.shiftr_div_pow2. change (2 ^ 6) with 64.
  assert (ch / 64 < 32) by (apply N.div_lt_upper_bound; lia).
  change 192 with (6 * 2 ^ 5) at 1. rewrite lor_add by (change (2 ^ 5) with 32; auto).
  change (6 * 2 ^ 5) with 192. rewrite w8_small by lia. f_equal. lia.
Qed.

(* ------------------------------------------------------------------ *)
(** ** Statements *)

Lemma c_string_before : forall s t, c_string s t -> before_nul s = t.
Proof. intros s t H. inversion H; subst; [apply before_nul_id|apply before_nul_app]; auto. Qed.

Lemma before_c_string : forall s, c_string s (before_nul s).
Proof.
  intros s. pose proof (before_nul_no s) as H. destruct (before_nul_cut s) as [E|[t E]].
  - rewrite <- E in *. constructor. auto.
  - rewrite E at 1. constructor. auto.
Qed.

Lemma announced_seq : forall lead, lead < 256 -> announced lead = Nat.max 1 (seq_len lead).
Proof.
  intros lead L.
  assert (A : forall i, In i (map N.of_nat (seq 0 256)) -> announced i = Nat.max 1 (seq_len i)).
  { apply Forall_forall. vm_compute. repeat (apply Forall_cons; [reflexivity|]). constructor. }
  apply A. apply in_map_iff. exists (N.to_nat lead). split; [apply N2Nat.id|]. apply in_seq. lia.
Qed.

Lemma scalars_small : forall cps, Forall scalar cps -> Forall (fun cp => cp < 2 ^ 21) cps.
Proof. intros cps F. eapply Forall_impl; [|exact F]. intros. apply scalar_small. auto. Qed.

Lemma to_utf8 : forall ws cps, c_string ws cps -> Forall scalar cps -> wide32_to_utf8 ws = Ok (utf8_text cps).
Proof.
  intros ws cps C F. rewrite wide32_enc, (c_string_before ws cps C), enc_utf8; auto. apply scalars_small. auto.
Qed.

Lemma from_utf8 : forall s cps, c_string s (utf8_text cps) -> Forall scalar cps -> utf8_to_wide32 s = Ok cps.
Proof.
  intros s cps C F. apply wide32_of_utf8; [apply scalars_small; auto|apply c_string_before; auto].
Qed.

Lemma utf8_inj : forall a b, Forall scalar a -> Forall scalar b -> utf8_text a = utf8_text b -> a = b.
Proof.
  intros a b Fa Fb E.
  pose proof (points_utf8 a [] [] _ (scalars_small _ Fa) (utf8_text_len a)) as A.
  pose proof (points_utf8 b [] [] _ (scalars_small _ Fb) (utf8_text_len b)) as B.
  rewrite E in A. rewrite A in B. congruence.
Qed.

Lemma reads_inside : forall s, bytes_ok s ->
  (forall i lead, nth_error (before_nul s) i = Some lead -> (i + announced lead <= length s + 1)%nat) ->
  exists cps, utf8_to_wide32 s = Ok cps.
Proof.
  intros s B H. apply wide32_safe. intros i lead E. specialize (H i lead E).
  rewrite announced_seq in H; [lia|].
  apply nth_error_In in E. apply (before_nul_forall _ _) in B. unfold bytes_ok in B. rewrite Forall_forall in B. apply B. auto.
Qed.

Lemma any_wide : forall ws, exists s, wide32_to_utf8 ws = Ok s.
Proof. intros. eexists. apply wide32_enc. Qed.

Lemma store_units_all : forall us pre t,
  store_units us (pre ++ repeat 0 (length us) ++ t) (length pre) = Ok (pre ++ us ++ t, (length pre + length us)%nat).
Proof.
  induction us as [|u r IH]; intros pre t; cbn [store_units length].
  - cbn [repeat app]. rewrite Nat.add_0_r. reflexivity.
  - change (repeat 0 (S (length r))) with ([0] ++ repeat 0 (length r)). rewrite <- app_assoc.
    rewrite (wr_mid pre [0] _ [u] eq_refl).
    replace (S (length pre)) with (length (pre ++ [u])) by (rewrite app_length; cbn; lia).
    rewrite app_assoc, IH, <- app_assoc. rewrite app_length. cbn [length app]. do 2 f_equal. lia.
Qed.

Lemma to_utf16 : forall cps, Forall scalar cps -> ~ In 0 cps -> Forall (fun cp => cp < 2 ^ 16) cps ->
  utf8_to_wide16 (utf8_text cps) = Ok (utf16_text cps).
Proof.
  intros cps F NZ L.
  assert (U : concat (map cp_units cps) = cps).
  { clear - L. induction L as [|c r C _ IH]; [reflexivity|]. cbn [map concat]. rewrite IH.
    change (2 ^ 16) with 65536 in C. unfold cp_units. destruct (N.ltb_spec 65535 c); [lia|].
    unfold w16. rewrite N.mod_small by exact C. reflexivity. }
  assert (V : utf16_text cps = cps).
  { clear - L. induction L as [|c r C _ IH]; [reflexivity|]. unfold utf16_text in *. cbn [map concat]. rewrite IH.
    unfold utf16. change (2 ^ 16) with 65536 in C. destruct (N.ltb_spec c 65536); [reflexivity|lia]. }
  assert (B : before_nul (utf8_text cps) = utf8_text cps).
  { pose proof (utf8_text_no_nul cps NZ) as H. clear - H. induction (utf8_text cps) as [|a l IH]; [reflexivity|].
    cbn [before_nul]. destruct (N.eqb_spec a 0) as [->|]; [exfalso; apply H; left; reflexivity|].
    f_equal. apply IH. intros X. apply H. right. exact X. }
  unfold utf8_to_wide16. rewrite B, V.
  pose proof (points_utf8 cps [] [0] (length (utf8_text cps))) as P. cbn [app length Nat.add] in P. rewrite P; clear P.
  - cbn [bind]. rewrite U. pose proof (store_units_all cps [] [0]) as SU. cbn [app length Nat.add] in SU.
    replace (repeat 0 (S (length cps))) with (repeat 0 (length cps) ++ [0])
      by (rewrite <- repeat_cons; reflexivity).
    rewrite SU. cbn [bind].
    assert (T : firstn (length cps) (cps ++ [0]) = cps)
      by (rewrite firstn_app, firstn_all, Nat.sub_diag; cbn; apply app_nil_r).
    destruct (_ =? _)%nat; [rewrite T; reflexivity|].
    pose proof (wr_mid cps [0] [] [0] eq_refl) as W. cbn [app] in W. rewrite W, T. reflexivity.
  - eapply Forall_impl; [|exact L]. cbv beta. intros a Ha. change (2 ^ 21) with 2097152. change (2 ^ 16) with 65536 in Ha. lia.
  - pose proof (utf8_text_len cps). lia.
Qed.
