(** From the appended bytes to whole files, and the places of array elements. *)
From Verif Require Import Base BlockModel BlockSpec BlockProofs CcModel ChannelModel
  MetaModel MetaSpec MetaProofs MetaProofs2 MetaProofs3.
Local Open Scope N_scope.

Lemma grows_firstn : forall f g, grows f g -> firstn (length f) g = f.
Proof. intros f g [x ->]. rewrite firstn_app, firstn_all, Nat.sub_diag. cbn [firstn]. apply app_nil_r. Qed.

Lemma writes_stored_as : forall {T} (wr : T -> file -> res (file * nat)) (rd : nat -> file -> nat -> res (T * N)) x y,
  (exists n, forall fuel, (n <= fuel)%nat -> writes_as wr (rd fuel) x y) -> stored_as wr rd x y.
Proof.
  intros T wr rd x y [n H]. exists n. intros fuel L f NE. destruct (H fuel L f NE) as (f' & pos & E & G & P1 & P2 & R).
  exists f', pos. split; auto. split; [apply grows_firstn; auto|]. intros B g. destruct (R B) as [Z R'].
  apply R'.
  - apply same_same_but. apply grows_same. eexists. reflexivity.
  - reflexivity.
  - apply holds_ext. exact Z.
Qed.

Lemma writes_stored : forall {T} (wr : T -> file -> res (file * nat)) (rd : nat -> file -> nat -> res (T * N)) x,
  (exists n, forall fuel, (n <= fuel)%nat -> writes wr (rd fuel) x) -> stored wr rd x.
Proof. intros T wr rd x. apply writes_stored_as. Qed.

Lemma writes_stored_list_as : forall {T} (wr : T -> file -> res (file * nat)) (rd : nat -> file -> nat -> res (T * N)) h xs,
  Forall (fun x => exists n, forall fuel, (n <= fuel)%nat -> writes_as wr (rd fuel) x (h x)) xs ->
  stored_list_as wr rd xs (map h xs).
Proof.
  intros T wr rd h xs F. destruct (writes_more_as wr rd h xs F) as [n H]. exists (max n (length xs)).
  intros fuel L f NE. destruct (emits_chain_as wr (rd fuel) fuel xs (map h xs) (H fuel ltac:(lia)) ltac:(lia) f NE)
    as (f' & l & E & G & R).
  exists f', l. split; auto. split; [apply grows_firstn; auto|]. intros B g. apply R; auto.
  apply grows_same. eexists. reflexivity.
Qed.

Lemma writes_stored_list : forall {T} (wr : T -> file -> res (file * nat)) (rd : nat -> file -> nat -> res (T * N)) xs,
  Forall (fun x => exists n, forall fuel, (n <= fuel)%nat -> writes wr (rd fuel) x) xs -> stored_list wr rd xs.
Proof.
  intros T wr rd xs F. unfold stored_list. rewrite <- (map_id xs) at 2. apply writes_stored_list_as. exact F.
Qed.

(* ------------------------------------------------------------------ *)
(** ** Places of array elements *)

Lemma row_major_lt : forall dims idx, in_shape dims idx -> row_major dims idx < elements dims.
Proof.
  intros dims idx H. induction H as [|d i r s L H IH]; cbn [row_major elements]; [reflexivity|]. nia.
Qed.

Lemma row_major_inj : forall dims i j, in_shape dims i -> in_shape dims j ->
  row_major dims i = row_major dims j -> i = j.
Proof.
  intros dims i j Hi. revert j. induction Hi as [|d i r s L H IH]; intros j Hj E.
  - inversion Hj. reflexivity.
  - inversion Hj as [|? j0 ? t Lj Hj']; subst. cbn [row_major] in E.
    pose proof (row_major_lt _ _ H) as B1. pose proof (row_major_lt _ _ Hj') as B2.
    assert (X : i = j0) by nia. subst. f_equal. apply IH; auto. lia.
Qed.

Lemma row_major_onto : forall dims k, k < elements dims -> exists idx, in_shape dims idx /\ row_major dims idx = k.
Proof.
  induction dims as [|d r IH]; intros k H.
  - exists []. split; [constructor|]. cbn in *. lia.
  - cbn [elements] in H. assert (NZ : elements r <> 0) by nia.
    destruct (IH (k mod elements r) (N.mod_lt _ _ NZ)) as (s & Hs & E).
    exists (k / elements r :: s). split.
    + constructor; auto. apply N.div_lt_upper_bound; auto. lia.
    + cbn [row_major]. rewrite E. rewrite N.mul_comm. symmetry. apply N.div_mod. auto.
Qed.

Lemma array_size_fold : forall arrays acc,
  Forall (fun a => Forall (fun d => 0 < d) (a_dims a)) arrays -> 0 < acc ->
  acc * fold_right (fun a n => elements (a_dims a) * n) 1 arrays < 2 ^ 64 ->
  fold_left (fun c a => w64 (c * nof_array_values a)) arrays acc =
  acc * fold_right (fun a n => elements (a_dims a) * n) 1 arrays.
Proof.
  induction arrays as [|a r IH]; intros acc F A B; cbn [fold_left fold_right] in *; [lia|].
  inversion_clear F as [|? ? F1 F2]. pose proof (elements_pos _ F1) as EP.
  assert (RP : 0 < fold_right (fun a n => elements (a_dims a) * n) 1 r).
  { clear -F2. induction F2 as [|x l H F IH]; cbn [fold_right]; [reflexivity|]. pose proof (elements_pos _ H). nia. }
  assert (EB : elements (a_dims a) < 2 ^ 64) by nia.
  unfold nof_array_values at 2. rewrite (product_elements _ F1 EB).
  assert (X : acc * elements (a_dims a) < 2 ^ 64) by nia.
  unfold w64 at 2. rewrite N.mod_small by exact X. rewrite IH; auto; nia.
Qed.

(** Without a wrap, element [k] lies [k] times the bit count after the first one. *)
Lemma bit_offset_linear : forall c k, ch_byte c * 8 + ch_bit c < 2 ^ 32 ->
  ch_byte c * 8 + ch_bit c + k * ch_bits c < 2 ^ 64 ->
  bit_offset c k = ch_byte c * 8 + ch_bit c + k * ch_bits c.
Proof.
  intros c k A B. unfold bit_offset, w32, w64.
  rewrite (N.mod_small (ch_byte c * 8)) by lia. rewrite (N.mod_small (ch_byte c * 8 + ch_bit c)) by lia.
  rewrite (N.mod_small (k * ch_bits c)) by lia. apply N.mod_small. lia.
Qed.
