(** Proofs about data blocks: one block written and read. *)
From Verif Require Import Base BlockModel BlockSpec BlockProofs BlockProofs2 DataModel DataSpec TransProofs.
From Coq Require Import Lia.
Local Open Scope N_scope.

Definition two_ok (a b : N) : Prop := a <> 0 /\ b <> 0 /\ is_space a = false /\ is_space b = false.

Lemma two_plain : forall a b, two_ok a b -> plain_text [a; b].
Proof.
  intros a b (A & B & C & D). split; [intros [E|[E|[]]]; congruence|]. intros _. auto.
Qed.

Lemma four_plain : forall a b, two_ok a b -> plain_text [35; 35; a; b].
Proof.
  intros a b (A & B & C & D). split; [intros [E|[E|[E|[E|[]]]]]; congruence|]. intros _. auto.
Qed.

Lemma eqb_type_refl : forall a b, eqb_type [a; b] a b = true.
Proof. intros. cbn. rewrite !N.eqb_refl. reflexivity. Qed.

Lemma read_type_at : forall f pos a b len links, two_ok a b ->
  holds f pos (header_bytes [35; 35; a; b] len links) -> read_type f pos = [a; b].
Proof.
  intros f pos a b len links T H. unfold header_bytes in H.
  apply holds_app in H as [H _]. change (str_bytes 4 [35; 35; a; b]) with ([35; 35] ++ [a; b]) in H.
  apply holds_app in H as [H1 H2]. cbn [length] in H2. unfold read_type.
  rewrite (read_str_written 2 [35; 35]); [|apply two_plain; repeat split; discriminate|cbn; lia|exact H1].
  change (eqb_type [35; 35] 35 35) with true. cbn iota.
  rewrite (read_str_written 2 [a; b]); [reflexivity|apply two_plain; auto|cbn; lia|exact H2].
Qed.

Section Blocks.
Variable deflate : list N -> list N.
Variable inflate : list N -> nat -> list N.
Hypothesis Z : zlib_ok deflate inflate.

Lemma dz_body_length : forall z, length (dz_body z) = (24 + length (dz_data z))%nat.
Proof.
  intros. unfold dz_body. rewrite !app_length, str_bytes_length, !le_bytes_length. cbn [length]. lia.
Qed.

Record dz_ok (z : dz) : Prop := {
  do_orig : type_ok 2 (dz_orig_type z);
  do_type : dz_type z < 256;
  do_param : dz_param z < 2 ^ 32;
  do_olen : dz_orig_len z < 2 ^ 64;
  do_len : dz_len z < 2 ^ 64
}.

Lemma read_dz_at : forall f pos len z, dz_ok z -> len < 2 ^ 64 ->
  holds f pos (header_bytes ty_dz len [] ++ dz_body z) ->
  read_dz f pos = Ok (Zip (pos + 48) (dz_type z) (dz_param z) (dz_orig_len z) (dz_len z)) /\
  holds f (pos + 48) (dz_data z).
Proof.
  intros f pos len z [O T P OL LN] L H. apply holds_app in H as [H1 H2].
  rewrite header_bytes_length in H2. cbn [length Nat.mul] in H2. rewrite Nat.add_0_r in H2.
  unfold read_dz. rewrite (read_header4_at f pos ty_dz len []); auto;
    try (apply four_plain; repeat split; discriminate); try reflexivity; try (cbn; lia).
  cbn [bind length Nat.mul]. rewrite Nat.add_0_r.
  unfold dz_body in H2.
  apply holds_app in H2 as [A H2]. rewrite str_bytes_length in H2.
  apply holds_app in H2 as [B H2]. rewrite le_bytes_length in H2.
  apply holds_app in H2 as [C H2]. cbn [length] in H2.
  apply holds_app in H2 as [D H2]. rewrite le_bytes_length in H2.
  apply holds_app in H2 as [E H2]. rewrite le_bytes_length in H2.
  apply holds_app in H2 as [F H2]. rewrite le_bytes_length in H2.
  destruct O as (O1 & O2 & O3 & O4).
  rewrite (read_str_written 2 (dz_orig_type z)); auto; [|split; auto|lia].
  rewrite (read_num_le _ _ 1 (dz_type z)) by auto. cbn [bind].
  rewrite (read_num_le _ _ 1 0); [|exact C|reflexivity]. cbn [bind].
  rewrite (read_num_le _ _ 4 (dz_param z)) by auto. cbn [bind].
  rewrite (read_num_le _ _ 8 (dz_orig_len z)) by auto. cbn [bind].
  rewrite (read_num_le _ _ 8 (dz_len z)) by auto. cbn [bind].
  replace (pos + 48)%nat with (pos + 24 + 2 + 1 + 1 + 4 + 8 + 8)%nat by lia.
  split; [|exact H2]. reflexivity.
Qed.

Lemma dz_pack_nil : forall orig t p, dz_pack deflate orig t p [] =
  mkDz orig (if (t =? 1) && negb (p =? 0) then 1 else 0) (if t =? 1 then p else 0) 0 0 [].
Proof.
  intros. unfold dz_pack. destruct (t =? 1); cbn [andb]; auto. destruct (p =? 0); reflexivity.
Qed.

Lemma dz_pack_cons : forall orig t p x, x <> [] -> 
  fits deflate (if t =? 1 then transpose (N.to_nat p) x else x) ->
  let z := dz_pack deflate orig t p x in
  dz_orig_type z = orig /\ dz_type z = (if (t =? 1) && negb (p =? 0) then 1 else 0) /\
  dz_param z = (if t =? 1 then p else 0) /\
  dz_orig_len z = N.of_nat (length x) /\ dz_len z = N.of_nat (length (dz_data z)) /\
  dz_data z = deflate (if t =? 1 then transpose (N.to_nat p) x else x).
Proof.
  intros orig t p x NE F. unfold dz_pack. 
  assert (D : forall y, length y = length x -> fits deflate y -> deflate_buf deflate y = deflate y).
  { intros y L G. unfold deflate_buf. destruct y as [|c y].
    - destruct x; [congruence|discriminate].
    - apply firstn_all2. exact G. }
  destruct (N.eqb_spec t 1) as [->|T]; cbn [andb].
  - destruct (N.eqb_spec p 0) as [->|P]; cbn [negb].
    + change (transpose (N.to_nat 0) x) with x in *. change (0 =? 1) with false. cbn iota.
      destruct x; [congruence|]. cbn [dz_orig_type dz_type dz_param dz_orig_len dz_len dz_data].
      rewrite D; auto. repeat split; auto.
    + change (1 =? 1) with true. cbn iota. destruct x; [congruence|].
      cbn [dz_orig_type dz_type dz_param dz_orig_len dz_len dz_data].
      rewrite D by (auto using transpose_length). repeat split; auto.
  - change (0 =? 1) with false. cbn iota. destruct x; [congruence|].
    cbn [dz_orig_type dz_type dz_param dz_orig_len dz_len dz_data].
    rewrite D; auto. repeat split; auto.
Qed.

Definition dblk_type (k : dblk) : list N := fst (fst (dblk_parts k)).
Definition dblk_body (k : dblk) : list N := snd (dblk_parts k).

(** The block [k] is stored at [pos]. *)
Definition dblk_at (f : file) (pos : nat) (k : dblk) : Prop :=
  (0 < pos)%nat /\
  holds f pos (header_bytes (dblk_type k) (N.of_nat (24 + length (dblk_body k))) [] ++ dblk_body k).

Definition dblk_end (pos : nat) (k : dblk) : nat := (pos + 24 + length (dblk_body k))%nat.

Lemma write_dblk_spec : forall k f, (0 < length f)%nat ->
  let pos := (length f + pad8 (length f))%nat in
  let size := N.of_nat (24 + length (dblk_body k)) in
  write_dblk k f =
  Ok (f ++ repeat 0 (pad8 (length f)) ++ header_bytes (dblk_type k) size [] ++ dblk_body k,
      mkB pos (dblk_type k) size []).
Proof.
  intros k f L pos size. unfold write_dblk, dblk_type, dblk_body in *.
  destruct (dblk_parts k) as [[ty len] body]. cbn [fst snd] in *.
  rewrite write_block4_spec by auto. cbn [length Nat.mul]. rewrite Nat.add_0_r. reflexivity.
Qed.

(** What reading the block gives: the type seen by the list, and the block. *)
Definition reads_as (f : file) (pos : nat) (d : dinfo) : Prop :=
  let t := read_type f pos in
  (eqb_type t 68 90 = true /\ read_dz f pos = Ok d) \/
  (eqb_type t 68 90 = false /\ raw_type t = true /\ read_raw f pos = Ok d).

Lemma raw_ids_types : forall ty, In ty raw_ids -> exists a b, ty = [35; 35; a; b] /\ two_ok a b /\
  eqb_type [a; b] 68 90 = false /\ raw_type [a; b] = true.
Proof.
  intros ty H. cbn [raw_ids In] in H. decompose [or] H; subst; try contradiction;
    eexists _, _; (split; [reflexivity|]); (split; [repeat split; discriminate|]); split; reflexivity.
Qed.

Lemma holds_slice_eq : forall f pos bs, holds f pos bs -> slice pos (length bs) f = bs.
Proof. intros f pos bs H. apply holds_slice in H. tauto. Qed.

Lemma unzip_at : forall orig t p x f pos, x <> [] -> 
  fits deflate (if t =? 1 then transpose (N.to_nat p) x else x) -> (0 < pos)%nat ->
  let z := dz_pack deflate orig t p x in
  holds f pos (dz_data z) ->
  unzip inflate f pos (dz_type z) (dz_param z) (dz_orig_len z) (dz_len z) = Some x.
Proof.
  intros orig t p x f pos NE F P z H.
  destruct (dz_pack_cons orig t p x NE F) as (_ & ET & EP & EO & EL & ED). fold z in ET, EP, EO, EL, ED.
  set (y := if t =? 1 then transpose (N.to_nat p) x else x) in *.
  assert (LY : length y = length x) by (subst y; destruct (t =? 1); auto using transpose_length).
  assert (NY : y <> []) by (intros X; rewrite X in LY; destruct x; [congruence|discriminate]).
  destruct (Z y NY) as [I1 I2].
  assert (LD : (0 < length (dz_data z))%nat) by (rewrite ED; destruct (deflate y); [congruence|cbn; lia]).
  assert (LX : (0 < length x)%nat) by (destruct x; [congruence|cbn; lia]).
  unfold unzip. rewrite EO, EL, !Nat2N.id, holds_slice_eq by auto.
  replace (pos =? 0)%nat with false by (symmetry; apply Nat.eqb_neq; lia).
  replace (N.of_nat (length x) =? 0) with false by (symmetry; apply N.eqb_neq; lia).
  replace (N.of_nat (length (dz_data z)) =? 0) with false by (symmetry; apply N.eqb_neq; lia).
  cbn [orb]. rewrite Nat.sub_diag. cbn [repeat]. rewrite app_nil_r, ED, <- LY, I1, ET, EP.
  subst y. destruct (N.eqb_spec t 1) as [->|T]; cbn [andb]; auto.
  destruct (N.eqb_spec p 0) as [->|PZ]; cbn [negb]; auto.
  rewrite inv_transpose_transpose. reflexivity.
Qed.

Lemma put_all : forall (x y : list N), length y = length x -> put y 0 x = x.
Proof.
  intros x y L. rewrite put_in by lia. cbn [firstn app Nat.add]. rewrite skipn_all2 by lia. apply app_nil_r.
Qed.

Lemma dz_pack_ok : forall orig t p x, type_ok 2 orig -> p < 2 ^ 32 ->
  fits deflate (if t =? 1 then transpose (N.to_nat p) x else x) ->
  N.of_nat (length x) < 2 ^ 64 -> N.of_nat (length (dz_data (dz_pack deflate orig t p x))) < 2 ^ 64 ->
  dz_ok (dz_pack deflate orig t p x).
Proof.
  intros orig t p x O P F LX LD. destruct x as [|c x].
  - rewrite dz_pack_nil. constructor; cbn; auto; try lia.
    + destruct ((t =? 1) && negb (p =? 0)); lia.
    + destruct (t =? 1); auto; lia.
  - destruct (dz_pack_cons orig t p (c :: x)) as (E1 & E2 & E3 & E4 & E5 & _); [discriminate|auto|].
    constructor.
    + rewrite E1. auto.
    + rewrite E2. destruct ((t =? 1) && negb (p =? 0)); lia.
    + rewrite E3. destruct (t =? 1); auto. lia.
    + rewrite E4. auto.
    + rewrite E5. auto.
Qed.

(** One data block: read by its list, it has the size of its data, and its bytes are those it was
    made from. *)
Lemma dblk_read : forall f pos k x, made_from deflate k x -> dblk_at f pos k ->
  N.of_nat (length f) < 2 ^ 63 -> N.of_nat (length x) < 2 ^ 63 ->
  exists d, reads_as f pos d /\ data_size d = N.of_nat (length x) /\
    block_bytes inflate f d = Ok x /\
    (forall dest idx, idx + N.of_nat (length x) <= N.of_nat (length dest) ->
       N.of_nat (length dest) < 2 ^ 64 ->
       copy_block inflate f d (dest, idx) = Ok (put dest (N.to_nat idx) x, idx + N.of_nat (length x))).
Proof.
  intros f pos k x M [P H] L LX.
  assert (HL : (pos + 24 + length (dblk_body k) <= length f)%nat).
  { destruct H as [HL _]. rewrite app_length, header_bytes_length in HL. cbn [length] in HL. lia. }
  assert (SB : N.of_nat (24 + length (dblk_body k)) < 2 ^ 64) by lia.
  destruct M as [ty x IN|orig t p x O PP F].
  - destruct (raw_ids_types _ IN) as (a & b & -> & T & E1 & E2).
    unfold dblk_type, dblk_body in *. cbn [dblk_parts fst snd] in *.
    apply holds_app in H as [H1 H2]. rewrite header_bytes_length in H2.
    change (24 + 8 * length (@nil N))%nat with 24%nat in H2.
    exists (Raw (pos + 24) (N.of_nat (length x))). split; [|split; [|split]].
    + right. rewrite (read_type_at _ _ _ _ _ _ T H1). split; [auto|]. split; [auto|].
      unfold read_raw. rewrite (read_header4_at _ _ _ _ _ H1); auto;
        [|apply four_plain; auto|cbn; reflexivity].
      cbn [bind b_len]. change (24 + 8 * length (@nil N))%nat with 24%nat.
      destruct (N.ltb_spec 24 (N.of_nat (24 + length x))); do 2 f_equal; lia.
    + reflexivity.
    + cbn [block_bytes]. rewrite Nat2N.id, holds_slice_eq by exact H2. reflexivity.
    + intros dest idx D1 D2. cbn [copy_block].
      destruct (N.eqb_spec (N.of_nat (length x)) 0) as [X0|X0].
      * destruct x; [|cbn in X0; lia]. rewrite X0, N.add_0_r. f_equal. f_equal.
        rewrite put_in by lia. cbn [app length]. rewrite Nat.add_0_r. symmetry. apply firstn_skipn.
      * rewrite Nat2N.id, holds_slice_eq by exact H2.
        unfold w64. rewrite N.mod_small by lia.
        destruct (N.ltb_spec (N.of_nat (length dest)) (idx + N.of_nat (length x))); [lia|]. reflexivity.
  - set (z := dz_pack deflate orig t p x) in *.
    assert (LB : (length (dz_data z) <= length f)%nat).
    { unfold dblk_body in HL. cbn [dblk_parts snd] in HL. rewrite dz_body_length in HL. lia. }
    assert (ZO : dz_ok z) by (apply dz_pack_ok; auto; fold z; lia).
    destruct (read_dz_at f pos _ z ZO SB H) as [R D].
    assert (TY : read_type f pos = [68; 90]).
    { apply holds_app in H as [H _]. assert (T2 : two_ok 68 90) by (repeat split; discriminate).
      apply (read_type_at _ _ _ _ _ _ T2 H). }
    eexists. split; [left; rewrite TY; split; [reflexivity|exact R]|].
    destruct x as [|c x].
    + subst z. rewrite dz_pack_nil in *. cbn [dz_orig_type dz_type dz_param dz_orig_len dz_len dz_data] in *.
      split; [reflexivity|].
      assert (U : forall ty pr, unzip inflate f (pos + 48) ty pr 0 0 = None).
      { intros. unfold unzip. change (0 =? 0) with true. rewrite orb_true_r. reflexivity. }
      split.
      * cbn [block_bytes copy_block]. rewrite U. reflexivity.
      * intros dest idx D1 D2. cbn [copy_block]. rewrite U. cbn [length]. cbn [N.of_nat]. rewrite N.add_0_r.
        f_equal. f_equal. cbn [length N.of_nat] in D1. rewrite put_in by lia. cbn [app length]. rewrite Nat.add_0_r. symmetry. apply firstn_skipn.
    + assert (NE : c :: x <> []) by discriminate. set (xx := c :: x) in *.
      pose proof (unzip_at orig t p xx f (pos + 48) NE F ltac:(lia) D) as U. fold z in U.
      destruct (dz_pack_cons orig t p xx NE F) as (_ & _ & _ & EO & _). fold z in EO. rewrite EO in *.
      split; [reflexivity|].
      assert (CP : forall dest idx, idx + N.of_nat (length xx) <= N.of_nat (length dest) ->
        copy_block inflate f (Zip (pos + 48) (dz_type z) (dz_param z) (N.of_nat (length xx)) (dz_len z)) (dest, idx)
        = Ok (put dest (N.to_nat idx) xx, idx + N.of_nat (length xx))).
      { intros dest idx D1. cbn [copy_block]. rewrite U, N.ltb_irrefl.
        destruct (N.ltb_spec (N.of_nat (length dest)) (idx + N.of_nat (length xx))); [lia|].
        rewrite Nat2N.id, firstn_all. reflexivity. }
      split; [|intros; apply CP; auto].
      cbn [block_bytes]. rewrite CP by (rewrite repeat_length; lia). cbn [bind].
      change (N.to_nat 0) with 0%nat. rewrite put_all; auto. rewrite repeat_length. lia.
Qed.

End Blocks.
