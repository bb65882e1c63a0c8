(** Proofs about the block layer. *)
From Verif Require Import Base BlockModel BlockSpec.
Local Open Scope N_scope.

(* ------------------------------------------------------------------ *)
(** ** Lists *)

Lemma nth_error_ext_N : forall (a b : list N), length a = length b ->
  (forall i, (i < length a)%nat -> nth_error a i = nth_error b i) -> a = b.
Proof.
  induction a as [|x a IH]; intros [|y b] L H; try discriminate L; auto.
  pose proof (H 0%nat ltac:(cbn; lia)) as H0. injection H0 as ->. f_equal. apply IH.
  - injection L; auto.
  - intros i Hi. apply (H (S i)). cbn. lia.
Qed.

Lemma nth_error_firstn' : forall (l : list N) n i, (i < n)%nat ->
  nth_error (firstn n l) i = nth_error l i.
Proof.
  induction l as [|x l IH]; intros [|n] [|i] H; cbn; auto; try lia. apply IH. lia.
Qed.

Lemma nth_error_skipn' : forall (l : list N) n i, nth_error (skipn n l) i = nth_error l (n + i).
Proof.
  induction l as [|x l IH]; intros [|n] i; cbn; auto; try (destruct i; reflexivity).
Qed.

(* ------------------------------------------------------------------ *)
(** ** put and holds *)

Lemma nth_error_repeat_ge : forall (x : N) n i, (n <= i)%nat -> nth_error (repeat x n) i = None.
Proof. intros. apply nth_error_None. rewrite repeat_length. auto. Qed.

Lemma put_in : forall f pos bs, (pos <= length f)%nat ->
  put f pos bs = firstn pos f ++ bs ++ skipn (pos + length bs) f.
Proof.
  intros f pos bs L. unfold put. replace (pos - length f)%nat with 0%nat by lia. reflexivity.
Qed.

Lemma put_end : forall f bs, put f (length f) bs = f ++ bs.
Proof.
  intros. rewrite put_in by lia. rewrite firstn_all, skipn_all2 by lia. rewrite app_nil_r. reflexivity.
Qed.

Lemma put_length : forall f pos bs, (pos + length bs <= length f)%nat -> length (put f pos bs) = length f.
Proof.
  intros f pos bs L. rewrite put_in by lia. rewrite !app_length, firstn_length, skipn_length. lia.
Qed.

Lemma put_nth : forall f pos bs i, (pos + length bs <= length f)%nat ->
  nth_error (put f pos bs) i =
  if ((pos <=? i) && (i <? pos + length bs))%nat then nth_error bs (i - pos) else nth_error f i.
Proof.
  intros f pos bs i L. rewrite put_in by lia.
  assert (LF : length (firstn pos f) = pos) by (rewrite firstn_length; lia).
  destruct (Nat.leb_spec pos i).
  - rewrite nth_error_app2 by lia. rewrite LF.
    destruct (Nat.ltb_spec i (pos + length bs)); cbn [andb].
    + apply nth_error_app1. lia.
    + rewrite nth_error_app2 by lia.
      rewrite <- (firstn_skipn (pos + length bs) f) at 2.
      rewrite (nth_error_app2 (firstn (pos + length bs) f)) by (rewrite firstn_length; lia).
      f_equal. rewrite firstn_length. lia.
  - cbn [andb]. rewrite nth_error_app1 by lia.
    rewrite <- (firstn_skipn pos f) at 2. rewrite (nth_error_app1 (firstn pos f)) by lia. reflexivity.
Qed.

Lemma put_same_outside : forall f pos bs, (pos + length bs <= length f)%nat ->
  same_outside f (put f pos bs) pos (length bs).
Proof.
  intros f pos bs L. split; [apply put_length; auto|]. intros i H. rewrite put_nth by auto.
  destruct (Nat.leb_spec pos i); destruct (Nat.ltb_spec i (pos + length bs)); cbn [andb]; auto. lia.
Qed.

Lemma holds_put : forall f pos bs, (pos + length bs <= length f)%nat -> holds (put f pos bs) pos bs.
Proof.
  intros f pos bs L. split; [rewrite put_length; auto|]. intros i H. rewrite put_nth by auto.
  replace ((pos <=? pos + i) && (pos + i <? pos + length bs))%nat with true
    by (symmetry; apply andb_true_iff; split; [apply Nat.leb_le|apply Nat.ltb_lt]; lia).
  f_equal. lia.
Qed.

Lemma holds_slice : forall f pos bs, holds f pos bs <->
  slice pos (length bs) f = bs /\ (pos + length bs <= length f)%nat.
Proof.
  intros f pos bs. unfold slice. split.
  - intros [L H]. split; auto.
    assert (LS : length (firstn (length bs) (skipn pos f)) = length bs).
    { rewrite firstn_length, skipn_length. lia. }
    apply nth_error_ext_N. exact LS. intros i Hi. rewrite <- H by lia.
    rewrite nth_error_firstn' by lia. apply nth_error_skipn'.
  - intros [E L]. split; auto. intros i Hi.
    transitivity (nth_error (firstn (length bs) (skipn pos f)) i); [|rewrite E; reflexivity].
    rewrite nth_error_firstn' by lia. symmetry. apply nth_error_skipn'.
Qed.

Lemma holds_app : forall f pos a b,
  holds f pos (a ++ b) <-> holds f pos a /\ holds f (pos + length a) b.
Proof.
  intros f pos a b. unfold holds. rewrite app_length. split.
  - intros [L H]. repeat split; try lia.
    + intros i Hi. rewrite H by lia. apply nth_error_app1. auto.
    + intros i Hi. replace (pos + length a + i)%nat with (pos + (length a + i))%nat by lia.
      rewrite H by lia. rewrite nth_error_app2 by lia. f_equal. lia.
  - intros [[L1 H1] [L2 H2]]. split; [lia|]. intros i Hi.
    destruct (Nat.lt_ge_cases i (length a)).
    + rewrite nth_error_app1 by auto. auto.
    + rewrite nth_error_app2 by auto. rewrite <- H2 by lia. f_equal. lia.
Qed.

Lemma holds_frame : forall f f' pos n p bs, same_outside f f' pos n -> holds f p bs ->
  (p + length bs <= pos \/ pos + n <= p)%nat -> holds f' p bs.
Proof.
  intros f f' pos n p bs [SL S] [L H] D. split; [lia|]. intros i Hi. rewrite S by lia. auto.
Qed.

Lemma holds_ext : forall f g p bs, holds f p bs -> holds (f ++ g) p bs.
Proof.
  intros f g p bs [L H]. split; [rewrite app_length; lia|]. intros i Hi.
  rewrite nth_error_app1 by lia. auto.
Qed.

Lemma holds_end : forall f bs g, holds (f ++ bs ++ g) (length f) bs.
Proof.
  intros. split; [rewrite !app_length; lia|]. intros i Hi.
  rewrite nth_error_app2 by lia. rewrite nth_error_app1 by lia. f_equal. lia.
Qed.

Lemma put_same : forall f pos bs, holds f pos bs -> put f pos bs = f.
Proof.
  intros f pos bs [L H]. apply nth_error_ext_N; [apply put_length; auto|].
  intros i Hi. rewrite put_nth by auto.
  destruct (Nat.leb_spec pos i); cbn [andb]; auto.
  destruct (Nat.ltb_spec i (pos + length bs)); auto.
  rewrite <- H by lia. f_equal. lia.
Qed.

(* ------------------------------------------------------------------ *)
(** ** Numbers *)

Lemma read_num_le : forall f pos k v, holds f pos (le_bytes k v) -> v < 256 ^ N.of_nat k ->
  read_num false k f pos = Ok (v, (pos + k)%nat).
Proof.
  intros f pos k v H B. apply holds_slice in H as [E L]. rewrite le_bytes_length in *.
  unfold read_num. rewrite E, le_bytes_length, Nat.ltb_irrefl, le_num_bytes, N.mod_small by auto.
  reflexivity.
Qed.

Lemma num_bytes_length : forall big k v, length (num_bytes big k v) = k.
Proof. intros [] k v; [apply be_bytes_length|apply le_bytes_length]. Qed.

Lemma read_num_any : forall big f pos k v, holds f pos (num_bytes big k v) -> v < 256 ^ N.of_nat k ->
  read_num big k f pos = Ok (v, (pos + k)%nat).
Proof.
  intros [] f pos k v H B; [|apply read_num_le; auto].
  apply holds_slice in H as [E L]. rewrite num_bytes_length in *.
  unfold read_num. rewrite E, num_bytes_length, Nat.ltb_irrefl.
  unfold num_bytes, be_num, be_bytes. rewrite rev_involutive, le_num_bytes, N.mod_small by auto.
  reflexivity.
Qed.

Lemma read_links_any : forall big k ls f pos,
  holds f pos (concat (map (num_bytes big k) ls)) -> Forall (fun l => l < 256 ^ N.of_nat k) ls ->
  read_links big k (length ls) f pos = Ok (ls, (pos + k * length ls)%nat).
Proof.
  induction ls as [|l ls IH]; intros f pos H F.
  - cbn [read_links length]. f_equal. f_equal. lia.
  - apply Forall_cons_iff in F as [F1 F2]. cbn [map concat] in H. apply holds_app in H as [H1 H2].
    rewrite num_bytes_length in H2. cbn [read_links length].
    rewrite (read_num_any _ _ _ _ l) by auto. cbn [bind]. rewrite IH by auto. cbn [bind].
    f_equal. f_equal. lia.
Qed.

(* ------------------------------------------------------------------ *)
(** ** Strings *)

Lemma ltrim_id : forall s, is_space (hd 0 s) = false \/ s = [] -> ltrim s = s.
Proof. intros [|c s] [H|H]; cbn in *; auto; try discriminate. rewrite H. reflexivity. Qed.

Lemma hd_rev : forall (s : list N) d, hd d (rev s) = last s d.
Proof.
  intros s d. destruct s as [|x s _] using rev_ind; [reflexivity|].
  rewrite rev_app_distr, last_last. reflexivity.
Qed.

Lemma trim_id : forall s, plain_text s -> trim s = s.
Proof.
  intros s [_ H]. destruct s as [|c s]; [reflexivity|].
  destruct H as [H1 H2]; [discriminate|]. unfold trim, rtrim.
  rewrite (ltrim_id (c :: s)) by auto. rewrite (ltrim_id (rev (c :: s))).
  - apply rev_involutive.
  - left. rewrite hd_rev. auto.
Qed.

Lemma ltrim_spec : forall s, exists a, s = a ++ ltrim s /\ Forall (fun c => is_space c = true) a /\
  (ltrim s = [] \/ is_space (hd 0 (ltrim s)) = false).
Proof.
  induction s as [|c s (a & E & F & D)].
  - exists []. cbn. auto.
  - cbn [ltrim]. destruct (is_space c) eqn:S.
    + exists (c :: a). cbn. rewrite <- E. auto.
    + exists []. cbn. auto.
Qed.

(** Trim removes white space at both ends and nothing else. *)
Lemma trim_spec : forall s, exists a b, s = a ++ trim s ++ b /\
  Forall (fun c => is_space c = true) a /\ Forall (fun c => is_space c = true) b /\
  (trim s = [] \/ is_space (hd 0 (trim s)) = false /\ is_space (last (trim s) 0) = false).
Proof.
  intros s. destruct (ltrim_spec s) as (a & E & F & D).
  destruct (ltrim_spec (rev (ltrim s))) as (b & E2 & F2 & D2).
  assert (ER : ltrim s = rtrim (ltrim s) ++ rev b).
  { unfold rtrim. rewrite <- (rev_involutive (ltrim s)) at 1. rewrite E2 at 1. apply rev_app_distr. }
  exists a, (rev b). unfold trim. rewrite <- ER. split; auto. split; auto. split.
  { apply Forall_rev; auto. }
  unfold rtrim. set (r := ltrim (rev (ltrim s))) in *.
  destruct D2 as [D2|D2]; [left; rewrite D2; reflexivity|].
  destruct (list_eq_dec N.eq_dec r []) as [Z|Z]; [left; rewrite Z; reflexivity|].
  right. split.
  - destruct D as [D|D].
    + exfalso. apply Z. rewrite D in E2. cbn in E2. destruct b; [auto|discriminate E2].
    + unfold rtrim in ER. fold r in ER. rewrite ER in D.
      destruct (rev r) as [|x y] eqn:R; [|exact D].
      exfalso. apply Z. rewrite <- (rev_involutive r), R. reflexivity.
  - rewrite <- hd_rev, rev_involutive. exact D2.
Qed.

Lemma read_chars_zero : forall s n f pos, ~ In 0 s -> (length s < n)%nat -> holds f pos (s ++ [0]) ->
  fst (read_chars n f pos) = s.
Proof.
  induction s as [|c s IH]; intros [|n] f pos NZ L H; cbn [length] in L; try lia.
  - cbn [read_chars app] in *. destruct H as [HL H]. specialize (H 0%nat ltac:(cbn; lia)).
    rewrite Nat.add_0_r in H. rewrite H. reflexivity.
  - cbn [read_chars]. change ((c :: s) ++ [0]) with ([c] ++ (s ++ [0])) in H.
    apply holds_app in H as [H1 H2]. cbn [length] in H2.
    destruct H1 as [HL H1]. specialize (H1 0%nat ltac:(cbn; lia)). rewrite Nat.add_0_r in H1.
    rewrite H1. cbn [nth_error].
    assert (c <> 0) by (intros ->; apply NZ; left; auto).
    replace (pos + 1)%nat with (S pos) in H2 by lia.
    specialize (IH n f (S pos) ltac:(intros X; apply NZ; right; auto) ltac:(lia) H2).
    destruct (read_chars n f (S pos)) as [t u]. cbn [fst] in *. subst t.
    destruct c; [congruence|reflexivity].
Qed.

Lemma read_chars_full : forall s f pos, ~ In 0 s -> holds f pos s ->
  fst (read_chars (length s) f pos) = s.
Proof.
  induction s as [|c s IH]; intros f pos NZ H; [reflexivity|].
  cbn [read_chars length]. change (c :: s) with ([c] ++ s) in H.
  apply holds_app in H as [H1 H2]. cbn [length] in H2.
  destruct H1 as [HL H1]. specialize (H1 0%nat ltac:(cbn; lia)). rewrite Nat.add_0_r in H1.
  rewrite H1. cbn [nth_error].
  assert (c <> 0) by (intros ->; apply NZ; left; auto).
  replace (pos + 1)%nat with (S pos) in H2 by lia.
  specialize (IH f (S pos) ltac:(intros X; apply NZ; right; auto) H2).
  destruct (read_chars (length s) f (S pos)) as [t u]. cbn [fst] in *. subst t.
  destruct c; [congruence|reflexivity].
Qed.

Lemma str_bytes_length : forall n s, length (str_bytes n s) = n.
Proof. intros. unfold str_bytes. rewrite firstn_length, app_length, repeat_length. lia. Qed.

Lemma str_bytes_pad : forall n s, (length s <= n)%nat -> str_bytes n s = s ++ repeat 0 (n - length s).
Proof.
  intros n s L. unfold str_bytes. rewrite firstn_app. rewrite firstn_all2 by auto. f_equal.
  replace n with ((n - length s) + length s)%nat at 2 by lia. rewrite repeat_app, firstn_app.
  rewrite repeat_length, Nat.sub_diag. cbn [firstn]. rewrite app_nil_r. apply firstn_all2.
  rewrite repeat_length. lia.
Qed.

Lemma read_str_written : forall n s f pos, plain_text s -> (length s <= n)%nat ->
  holds f pos (str_bytes n s) -> read_str n f pos = (s, (pos + n)%nat).
Proof.
  intros n s f pos P L H. unfold read_str. f_equal. rewrite str_bytes_pad in H by auto.
  destruct P as [NZ P]. 
  assert (E : fst (read_chars n f pos) = s).
  { destruct (Nat.eq_dec (length s) n) as [E|E].
    - rewrite <- E. apply read_chars_full; auto. rewrite E, Nat.sub_diag in H. cbn in H.
      rewrite app_nil_r in H. auto.
    - apply read_chars_zero; auto; [lia|].
      replace (n - length s)%nat with (S (n - length s - 1)) in H by lia. cbn [repeat] in H.
      change (s ++ 0 :: repeat 0 (n - length s - 1)) with (s ++ [0] ++ repeat 0 (n - length s - 1)) in H.
      rewrite app_assoc in H. apply holds_app in H. tauto. }
  rewrite E. apply trim_id. split; auto.
Qed.

Lemma type_plain : forall n ty, type_ok n ty -> plain_text ty.
Proof. intros n ty (L & Z & A & B). split; auto. Qed.

(* ------------------------------------------------------------------ *)
(** ** MDF4 headers *)

Lemma header_bytes_length : forall ty len links,
  length (header_bytes ty len links) = (24 + 8 * length links)%nat.
Proof.
  intros. unfold header_bytes. rewrite !app_length, str_bytes_length, repeat_length, !le_bytes_length.
  assert (E : length (concat (map (le_bytes 8) links)) = (8 * length links)%nat).
  { clear. induction links as [|l r IH]; [reflexivity|]. cbn [map concat length].
    rewrite app_length, le_bytes_length, IH. lia. }
  rewrite E. lia.
Qed.

Lemma read_header4_at : forall f pos ty len links,
  holds f pos (header_bytes ty len links) -> plain_text ty -> (length ty <= 4)%nat ->
  len < 2 ^ 64 -> N.of_nat (length links) < 2 ^ 64 -> Forall (fun l => l < 2 ^ 64) links ->
  read_header4 f pos = Ok (mkB pos ty len links, (pos + (24 + 8 * length links))%nat).
Proof.
  intros f pos ty len links H T LT B BL F. unfold header_bytes in H.
  apply holds_app in H as [H1 H]. apply holds_app in H as [H2 H]. apply holds_app in H as [H3 H].
  apply holds_app in H as [H4 H5].
  rewrite str_bytes_length in *. rewrite repeat_length in *. rewrite !le_bytes_length in *.
  unfold read_header4. rewrite (read_str_written 4 ty f pos T LT H1).
  assert (R : read_num false 4 f (pos + 4) = Ok (0, (pos + 4 + 4)%nat)).
  { apply read_num_le; [exact H2|]. reflexivity. }
  rewrite R. cbn [bind].
  rewrite (read_num_le f _ 8 len H3) by exact B. cbn [bind].
  rewrite (read_num_le f _ 8 _ H4) by exact BL. cbn [bind].
  rewrite Nat2N.id. rewrite (read_links_any false 8 links) by auto. cbn [bind].
  f_equal. f_equal. lia.
Qed.
