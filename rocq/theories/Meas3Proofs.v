(** What the MDF3 writer appends depends only on the length of the file, so that a block rewritten in
    place is the block the writer would have written. *)
From Verif Require Import Base BlockModel BlockSpec BlockProofs BlockProofs3 BlockProofs4 ConvModel CcModel Cc3Proofs MetaModel MetaProofs
  IdentModel Meta3Model Meta3Spec Meta3Proofs Meta3Proofs2 MeasModel MeasProofs Meas3Model.
Local Open Scope N_scope.

Definition appends {A} (w : file -> res (file * A)) : Prop :=
  exists (X : nat -> list N) (P : nat -> A),
    forall f : file, (0 < length f)%nat -> w f = Ok (f ++ X (length f), P (length f)).

Lemma tx3_app : forall s (f : file), exists x, write_tx3 false s f = (f ++ x, length f) /\
  x = header3_bytes false [84; 88] (w16 (N.of_nat (4 + length s + 1))) [] ++ s ++ [0].
Proof.
  intros s f. unfold write_tx3, write_header3. cbn [b_type b_len b_links b_pos].
  rewrite put_end. rewrite <- app_length, put_end, <- app_assoc. eexists. split; reflexivity.
Qed.

Lemma appends_text : forall t, appends (fun f => Ok (write_text3 t f)).
Proof.
  intros [|c t].
  - exists (fun _ => []), (fun _ => 0). intros f _. cbn [write_text3]. rewrite app_nil_r. reflexivity.
  - eexists (fun _ => _), (fun n => N.of_nat n). intros f _. unfold write_text3.
    destruct (tx3_app (c :: t) f) as (x & E & EX). rewrite E. rewrite EX. reflexivity.
Qed.

Lemma texts_app : forall l, exists X L, forall f : file, write_range_texts false l f = (f ++ X (length f), L (length f)).
Proof.
  induction l as [|[[lo hi] t] r (X & L & IH)].
  - exists (fun _ => []), (fun _ => []). intros f. cbn [write_range_texts]. rewrite app_nil_r. reflexivity.
  - destruct t as [|c t].
    + exists X, (fun n => 0 :: L n). intros f. cbn [write_range_texts]. rewrite IH. reflexivity.
    + set (x := header3_bytes false [84; 88] (w16 (N.of_nat (4 + @length N [] + 1))) [] ++ [] ++ [0]).
      exists (fun n => x ++ X (n + length x)%nat), (fun n => w32 (N.of_nat n) :: L (n + length x)%nat).
      intros f. cbn [write_range_texts]. destruct (tx3_app [] f) as (y & E & EY). rewrite E.
      fold x in EY. subst y. rewrite IH, app_length, <- app_assoc. reflexivity.
Qed.

Lemma put_later : forall f x k bs, (k + length bs <= length x)%nat -> put (f ++ x) (length f + k) bs = f ++ put x k bs.
Proof.
  intros f x k bs L. rewrite !put_in by (rewrite ?app_length; lia).
  rewrite firstn_app, skipn_app, firstn_all2, skipn_all2 by lia.
  replace (length f + k - length f)%nat with k by lia.
  replace (length f + k + length bs - length f)%nat with (k + length bs)%nat by lia.
  rewrite <- app_assoc. reflexivity.
Qed.

Lemma appends_ccx : forall c, appends (write_ccx_opt c).
Proof.
  intros [c|].
  2:{ exists (fun _ => []), (fun _ => 0). intros f _. cbn [write_ccx_opt]. rewrite app_nil_r. reflexivity. }
  destruct (texts_app (k_ranges (x_conv c))) as (X & L & ET).
  set (Y := fun n => header3_bytes false ty_cc3 46 [] ++ fixed3 c ++ cc3_tail (x_conv c) (x_pads c) (L n)).
  set (Z := fun n => N.of_nat (4 + length (fixed3 c) + length (cc3_tail (x_conv c) (x_pads c) (L n)))
               - (if k_type (x_conv c) =? 10 then N.of_nat (length (k_formula (x_conv c))) else 0)).
  exists (fun n => X n ++ if 46 =? w32 (Z n) then Y n else put (Y n) 2 (num_bytes false 2 (w16 (Z n)))),
    (fun n => N.of_nat (n + length (X n))).
  intros f NE. unfold write_ccx_opt, write_ccx. rewrite ET. unfold write_header3. cbn [b_type b_len b_links b_pos].
  rewrite put_end. rewrite <- app_length, put_end. fold (fixed3 c).
  unfold update_size3. cbn [b_pos b_len b_type b_links].
  replace ((length (f ++ X (length f)) =? 0)%nat) with false by (symmetry; apply Nat.eqb_neq; rewrite app_length; lia).
  fold (Z (length f)).
  rewrite <- !(app_assoc (f ++ X (length f))). fold (Y (length f)).
  destruct (46 =? w32 (Z (length f))); cbn [bind b_pos].
  - rewrite <- app_assoc, app_length. reflexivity.
  - rewrite put_later.
    + rewrite <- app_assoc, app_length. reflexivity.
    + unfold Y. rewrite num_bytes_length, !app_length, header3_length. cbn [length]. lia.
Qed.

(** A block with its position: it begins behind the old end and its first link lies in the new part. *)
Definition appends_block (w : file -> res (file * nat)) : Prop :=
  exists (X : nat -> list N) (P : nat -> nat), (forall n, (n <= P n)%nat /\ (P n + 8 <= n + length (X n))%nat) /\
    forall f : file, (0 < length f)%nat -> w f = Ok (f ++ X (length f), P (length f)).

Lemma link3_new : forall (f : file) x k i l, (k + 4 + 4 * i + 4 <= length x)%nat ->
  link3 (f ++ x) (length f + k) i l = f ++ link3 x k i l.
Proof.
  intros f x k i l L. unfold link3. destruct (l =? 0); [reflexivity|]. unfold set3.
  replace (length f + k + 4 + 4 * i)%nat with (length f + (k + 4 + 4 * i))%nat by lia.
  apply put_later. rewrite le_bytes_length. lia.
Qed.

Lemma link3_length : forall x k i l, (k + 4 + 4 * i + 4 <= length x)%nat -> length (link3 x k i l) = length x.
Proof.
  intros. unfold link3, set3. destruct (l =? 0); auto. apply put_length. rewrite le_bytes_length. lia.
Qed.

Lemma appends_cn : forall c, appends_block (write_cn3 c).
Proof.
  intros c. destruct (appends_text (n3_long c)) as (X1 & P1 & E1). destruct (appends_text (n3_display c)) as (X2 & P2 & E2).
  destruct (appends_ccx (n3_cc c)) as (X3 & P3 & E3). destruct (appends_text (n3_comment c)) as (X4 & P4 & E4).
  set (n1 := fun n => (n + length (X1 n))%nat). set (n2 := fun n => (n1 n + length (X2 (n1 n)))%nat).
  set (B := fun n => header3_bytes false ty_cn3 228 [0; 0; 0; 0; 0] ++ cn3_body c (P1 n) (P2 (n1 n))).
  assert (LB : forall n, length (B n) = 228%nat).
  { intros. unfold B. rewrite app_length, header3_length, cn3_body_length. reflexivity. }
  set (n3 := fun n => (n2 n + 228)%nat). set (n4 := fun n => (n3 n + length (X3 (n3 n)))%nat).
  exists (fun n => X1 n ++ X2 (n1 n) ++
     link3 (link3 (B n ++ X3 (n3 n)) 0 1 (P3 (n3 n)) ++ X4 (n4 n)) 0 4 (P4 (n4 n))), n2.
  split.
  - intros n. rewrite !app_length. rewrite link3_length; rewrite app_length, link3_length; rewrite ?app_length, ?LB; unfold n2, n1; lia.
  - intros f NE. unfold write_cn3.
    specialize (E1 f NE). apply ok_inj in E1. rewrite E1.
    specialize (E2 (f ++ X1 (length f)) ltac:(rewrite app_length; lia)). apply ok_inj in E2. rewrite E2.
    rewrite app_length. fold (n1 (length f)).
    set (f2 := (f ++ X1 (length f)) ++ X2 (n1 (length f))).
    assert (L2 : length f2 = n2 (length f)) by (unfold f2; rewrite !app_length; unfold n2, n1; lia).
    fold (B (length f)).
    assert (L3 : length (f2 ++ B (length f)) = n3 (length f)) by (rewrite app_length, LB, L2; reflexivity).
    rewrite E3 by (rewrite L3; unfold n3; lia). cbn [bind]. rewrite L3.
    assert (K3 : link3 ((f2 ++ B (length f)) ++ X3 (n3 (length f))) (length f2) 1 (P3 (n3 (length f))) =
       f2 ++ link3 (B (length f) ++ X3 (n3 (length f))) 0 1 (P3 (n3 (length f)))).
    { rewrite <- app_assoc. rewrite <- (Nat.add_0_r (length f2)) at 1. apply link3_new. rewrite app_length, LB. lia. }
    rewrite K3.
    set (z := link3 (B (length f) ++ X3 (n3 (length f))) 0 1 (P3 (n3 (length f)))).
    assert (LZ : length (f2 ++ z) = n4 (length f)).
    { unfold z. rewrite app_length, link3_length by (rewrite app_length, LB; lia). rewrite app_length, LB, L2. unfold n4, n3. lia. }
    assert (LZ' : (228 <= length z)%nat) by (unfold z; rewrite link3_length; rewrite app_length, LB; lia).
    specialize (E4 (f2 ++ z) ltac:(rewrite LZ; unfold n4, n3; lia)). apply ok_inj in E4. rewrite E4, LZ.
    rewrite <- app_assoc.
    assert (K4 : link3 (f2 ++ z ++ X4 (n4 (length f))) (length f2) 4 (P4 (n4 (length f))) =
       f2 ++ link3 (z ++ X4 (n4 (length f))) 0 4 (P4 (n4 (length f)))).
    { rewrite <- (Nat.add_0_r (length f2)) at 1. apply link3_new. rewrite app_length. lia. }
    rewrite K4, L2. unfold f2. rewrite <- !app_assoc. reflexivity.
Qed.

(** A list of blocks. *)
Lemma set3_old : forall (f : file) x q l, (q + 8 <= length f)%nat -> set3 (f ++ x) q 0 l = set3 f q 0 l ++ x.
Proof. intros. unfold set3. apply put_app. rewrite le_bytes_length. lia. Qed.

Lemma set3_length : forall (f : file) q l, (q + 8 <= length f)%nat -> length (set3 f q 0 l) = length f.
Proof. intros. unfold set3. apply put_length. rewrite le_bytes_length. lia. Qed.

Lemma set3_new : forall (f : file) x q l, (length f <= q)%nat -> (q + 8 <= length f + length x)%nat ->
  set3 (f ++ x) q 0 l = f ++ set3 x (q - length f) 0 l.
Proof.
  intros f x q l L1 L2. unfold set3. replace (q + 4 + 4 * 0)%nat with (length f + (q - length f + 4 + 4 * 0))%nat by lia.
  apply put_later. rewrite le_bytes_length. lia.
Qed.

Section Chain.
Context {T : Type} (wr : T -> file -> res (file * nat)).

Lemma chain_some_app : forall xs, Forall (fun x => appends_block (wr x)) xs -> xs <> [] ->
  exists (X : nat -> list N) (P : nat -> N), forall (f : file) q, (0 < length f)%nat -> (q + 8 <= length f)%nat ->
    write_chain3 wr (Some q) xs f = Ok (set3 f q 0 (P (length f)) ++ X (length f), P (length f)).
Proof.
  intros xs F. induction F as [|x r (X & P & B & E) F IH]; intros NN; [congruence|]. clear NN.
  destruct r as [|y r].
  - exists X, (fun n => N.of_nat (P n)). intros f q NE L. cbn [write_chain3]. rewrite E by exact NE. cbn [bind].
    rewrite set3_old by exact L. reflexivity.
  - destruct IH as (XR & PR & ER); [discriminate|].
    set (n' := fun n => (n + length (X n))%nat).
    exists (fun n => set3 (X n) (P n - n) 0 (PR (n' n)) ++ XR (n' n)), (fun n => N.of_nat (P n)).
    intros f q NE L.
    change (write_chain3 wr (Some q) (x :: y :: r) f) with
      (bind (wr x f) (fun '(f1, pos) => bind (write_chain3 wr (Some pos) (y :: r) (set3 f1 q 0 (N.of_nat pos)))
         (fun '(f2, _) => Ok (f2, N.of_nat pos)))).
    rewrite E by exact NE. cbn [bind]. destruct (B (length f)) as [B1 B2].
    rewrite set3_old by exact L. set (v := N.of_nat (P (length f))).
    assert (LF : length (set3 f q 0 v) = length f) by (apply set3_length; exact L).
    assert (LG : length (set3 f q 0 v ++ X (length f)) = n' (length f)) by (rewrite app_length, LF; reflexivity).
    rewrite ER; [|rewrite LG; unfold n'; lia|rewrite LG; unfold n'; lia].
    cbn [bind]. rewrite LG. rewrite set3_new by (rewrite LF; lia). rewrite LF, <- app_assoc. reflexivity.
Qed.

Lemma appends_chain : forall xs, Forall (fun x => appends_block (wr x)) xs -> appends (write_chain3 wr None xs).
Proof.
  intros xs F. destruct xs as [|x [|y r]].
  - exists (fun _ => []), (fun _ => 0). intros f _. cbn [write_chain3]. rewrite app_nil_r. reflexivity.
  - apply Forall_inv in F. destruct F as (X & P & B & E). exists X, (fun n => N.of_nat (P n)). intros f NE.
    cbn [write_chain3]. rewrite E by exact NE. reflexivity.
  - destruct (chain_some_app (y :: r) (Forall_inv_tail F) ltac:(discriminate)) as (XR & PR & ER).
    apply Forall_inv in F. destruct F as (X & P & B & E).
    set (n' := fun n => (n + length (X n))%nat).
    exists (fun n => set3 (X n) (P n - n) 0 (PR (n' n)) ++ XR (n' n)), (fun n => N.of_nat (P n)).
    intros f NE. destruct (B (length f)) as [B1 B2].
    change (write_chain3 wr None (x :: y :: r) f) with
      (bind (wr x f) (fun '(f1, pos) => bind (write_chain3 wr (Some pos) (y :: r) f1)
         (fun '(f2, _) => Ok (f2, N.of_nat pos)))).
    rewrite E by exact NE. cbn [bind].
    assert (LG : length (f ++ X (length f)) = n' (length f)) by (rewrite app_length; reflexivity).
    rewrite ER; [|rewrite LG; unfold n'; lia|rewrite LG; unfold n'; lia].
    cbn [bind]. rewrite LG. rewrite set3_new by lia. rewrite <- app_assoc. reflexivity.
Qed.

End Chain.

Lemma appends_cns : forall l, appends (write_chain3 write_cn3 None l).
Proof. intros l. apply appends_chain. apply Forall_forall. intros c _. apply appends_cn. Qed.

(* ------------------------------------------------------------------ *)
(** ** Closed forms *)

(** What a writer appends to a file of [n] bytes, and the position it returns. *)
Definition tail_of (w : file -> res (file * N)) (n : nat) : list N :=
  match w (repeat 0 n) with Ok (f, _) => skipn n f | _ => [] end.
Definition pos_of (w : file -> res (file * N)) (n : nat) : N :=
  match w (repeat 0 n) with Ok (_, l) => l | _ => 0 end.

Lemma appends_tail : forall w, appends w -> forall f : file, (0 < length f)%nat ->
  w f = Ok (f ++ tail_of w (length f), pos_of w (length f)).
Proof.
  intros w (X & P & E) f NE. rewrite E by exact NE. unfold tail_of, pos_of.
  rewrite E by (rewrite repeat_length; exact NE). rewrite skipn_app, repeat_length, Nat.sub_diag.
  rewrite skipn_all2 by (rewrite repeat_length; lia). reflexivity.
Qed.

Definition text_b (t : list N) : nat -> list N := tail_of (fun f => Ok (write_text3 t f)).
Definition text_l (t : list N) : nat -> N := pos_of (fun f => Ok (write_text3 t f)).
Definition cns_b (l : list cn3) : nat -> list N := tail_of (write_chain3 write_cn3 None l).
Definition cns_l (l : list cn3) : nat -> N := pos_of (write_chain3 write_cn3 None l).

(** A block that begins at the end of the file, by its link to the next block and its position. *)
Definition blockf : Type := N -> nat -> list N.

Definition cg_b (g : cg3) : blockf := fun l n =>
  header3_bytes false ty_cg3 30 [l; cns_l (g3_cns g) (n + 30); text_l (g3_comment g) (n + 30 + length (cns_b (g3_cns g) (n + 30)))]
  ++ cg3_body g ++ cns_b (g3_cns g) (n + 30) ++ text_b (g3_comment g) (n + 30 + length (cns_b (g3_cns g) (n + 30))).

(** A list of such blocks. *)
Fixpoint chain_b (bs : list blockf) (n : nat) : list N :=
  match bs with
  | [] => []
  | b :: r => let n' := (n + length (b 0%N n))%nat in
              b (match r with [] => 0 | _ => N.of_nat n' end) n ++ chain_b r n'
  end.
Fixpoint places_b (bs : list blockf) (n : nat) : list nat :=
  match bs with
  | [] => []
  | b :: r => n :: places_b r (n + length (b 0%N n))%nat
  end.
Definition first_b {A} (l : list A) (n : nat) : N := match l with [] => 0 | _ => N.of_nat n end.

Definition dg_b (d : dgb3) : blockf := fun l n =>
  header3_bytes false ty_dg3 28 [l; first_b (d3_cgs d) (n + 28); 0; d3_link d] ++ dg3_body d
  ++ chain_b (map cg_b (d3_cgs d)) (n + 28).

Definition hd_b (h : hd3) (n : nat) : list N :=
  header3_bytes false ty_hd3 208 [first_b (h3_dgs h) (n + 208 + length (text_b (h3_comment h) (n + 208)));
                                  text_l (h3_comment h) (n + 208); 0]
  ++ hd3_body h ++ text_b (h3_comment h) (n + 208)
  ++ chain_b (map dg_b (h3_dgs h)) (n + 208 + length (text_b (h3_comment h) (n + 208))).

(** The writer of a block has such a form. *)
Definition block_form (w : file -> res (file * nat)) (b : blockf) : Prop :=
  (forall f : file, (0 < length f)%nat -> w f = Ok (f ++ b 0 (length f), length f)) /\
  (forall l n, length (b l n) = length (b 0 n) /\ (8 <= length (b 0%N n))%nat) /\
  (forall (f : file) l m x, set3 (f ++ b m (length f) ++ x) (length f) 0 l = f ++ b l (length f) ++ x).

Lemma cg_form3 : forall g, block_form (write_cg3 g) (cg_b g).
Proof.
  intros g. split; [|split].
  - intros f NE. unfold write_cg3. unfold cg_b at 1.
    pose proof (appends_tail _ (appends_cns (g3_cns g)) (f ++ header3_bytes false ty_cg3 30 [0; 0; 0] ++ cg3_body g)) as E1.
    rewrite E1 by (rewrite app_length; lia). cbn [bind].
    assert (L1 : length (f ++ header3_bytes false ty_cg3 30 [0; 0; 0] ++ cg3_body g) = (length f + 30)%nat).
    { rewrite !app_length, header3_length, cg3_body_length. cbn [length]. lia. }
    rewrite L1. fold (cns_b (g3_cns g) (length f + 30)). fold (cns_l (g3_cns g) (length f + 30)).
    set (xc := cns_b (g3_cns g) (length f + 30)). set (lc := cns_l (g3_cns g) (length f + 30)).
    rewrite <- !app_assoc.
    pose proof (link3_at f ty_cg3 30 [0] [0] (cg3_body g ++ xc) lc) as K1. cbn [app length] in K1. rewrite K1.
    pose proof (appends_tail _ (appends_text (g3_comment g))
       (f ++ header3_bytes false ty_cg3 30 [0; lc; 0] ++ cg3_body g ++ xc) ltac:(rewrite app_length; lia)) as E2.
    apply ok_inj in E2. rewrite E2.
    assert (L2 : length (f ++ header3_bytes false ty_cg3 30 [0; lc; 0] ++ cg3_body g ++ xc) = (length f + 30 + length xc)%nat).
    { rewrite !app_length, header3_length, cg3_body_length. cbn [length]. lia. }
    rewrite L2. fold (text_b (g3_comment g) (length f + 30 + length xc)). fold (text_l (g3_comment g) (length f + 30 + length xc)).
    rewrite <- !app_assoc.
    pose proof (link3_at f ty_cg3 30 [0; lc] [] (cg3_body g ++ xc ++ text_b (g3_comment g) (length f + 30 + length xc))
       (text_l (g3_comment g) (length f + 30 + length xc))) as K2. cbn [app length] in K2. rewrite K2. reflexivity.
  - intros l n. unfold cg_b. rewrite !app_length, !header3_length, cg3_body_length. cbn [length]. split; lia.
  - intros f l m x. unfold cg_b. rewrite <- !app_assoc.
    match goal with |- set3 (f ++ header3_bytes _ _ _ (m :: ?ls) ++ ?r) _ _ _ = _ =>
      pose proof (set3_at f ty_cg3 30 [] m ls r l) as K end.
    cbn [app length] in K. exact K.
Qed.

(** Lists of blocks in closed form. *)
Section ChainForm.
Context {T : Type} (wr : T -> file -> res (file * nat)) (b : T -> blockf).

Lemma chain_b_some : forall xs, Forall (fun x => block_form (wr x) (b x)) xs -> forall (f0 f : file) x0 q m,
  block_form (wr x0) (b x0) -> q = length f0 -> f = f0 ++ b x0 m q -> (0 < length f0)%nat -> m = 0 ->
  write_chain3 wr (Some q) xs f =
    Ok (f0 ++ b x0 (first_b xs (length f)) q ++ chain_b (map b xs) (length f), first_b xs (length f)).
Proof.
  intros xs F. induction F as [|x r [W [LB SL]] F IH]; intros f0 f x0 q m B0 Eq Ef NE Em.
  - cbn [write_chain3 first_b map chain_b]. rewrite app_nil_r. subst. reflexivity.
  - assert (NF : (0 < length f)%nat) by (rewrite Ef, app_length; lia).
    cbn [write_chain3 first_b map chain_b]. rewrite W by exact NF. cbn [bind].
    destruct B0 as [_ [LB0 SL0]].
    assert (E1 : set3 (f ++ b x 0 (length f)) q 0 (N.of_nat (length f)) =
       (f0 ++ b x0 (N.of_nat (length f)) q) ++ b x 0 (length f)).
    { rewrite Ef at 1. rewrite <- app_assoc. rewrite Eq at 2. rewrite Eq at 1. rewrite SL0, <- Eq, <- app_assoc. reflexivity. }
    rewrite E1. set (g := f0 ++ b x0 (N.of_nat (length f)) q).
    assert (LG : length g = length f).
    { unfold g. generalize (N.of_nat (length f)). intros v. rewrite Ef, !app_length, (proj1 (LB0 v q)), (proj1 (LB0 m q)). reflexivity. }
    rewrite (IH g (g ++ b x 0 (length f)) x (length f) 0); auto; try lia.
    + cbn [bind]. rewrite app_length, LG. unfold g. rewrite <- app_assoc. destruct r; reflexivity.
    + split; [exact W|split; [exact LB|exact SL]].
Qed.

Lemma chain_b_form : forall xs, Forall (fun x => block_form (wr x) (b x)) xs -> forall f : file, (0 < length f)%nat ->
  write_chain3 wr None xs f = Ok (f ++ chain_b (map b xs) (length f), first_b xs (length f)).
Proof.
  intros xs F f NE. destruct F as [|x r [W [LB SL]] F].
  - cbn [write_chain3 first_b map chain_b]. rewrite app_nil_r. reflexivity.
  - cbn [write_chain3 first_b map chain_b]. rewrite W by exact NE. cbn [bind].
    rewrite (chain_b_some r F f (f ++ b x 0 (length f)) x (length f) 0); auto.
    + cbn [bind]. rewrite app_length. destruct r; reflexivity.
    + split; [exact W|split; [exact LB|exact SL]].
Qed.

Lemma chain_places_form : forall {P} (pl : T -> file -> P) (pb : T -> nat -> P) xs, Forall (fun x => block_form (wr x) (b x)) xs ->
  (forall x (f : file), In x xs -> (0 < length f)%nat -> pl x f = pb x (length f)) ->
  forall (f : file) prev, (0 < length f)%nat -> (forall q, prev = Some q -> (q + 8 <= length f)%nat) ->
  chain_places3 wr pl prev xs f = map (fun '(n, x) => (n, pb x n)) (combine (places_b (map b xs) (length f)) xs).
Proof.
  intros P pl pb xs F. induction F as [|x r [W [LB SL]] F IH]; intros EP f prev NE PQ; [reflexivity|].
  cbn [chain_places3 map places_b combine]. rewrite W by exact NE. rewrite EP by (auto; left; auto). f_equal.
  set (f2 := match prev with Some q => _ | None => _ end).
  assert (L2 : length f2 = (length f + length (b x 0%N (length f)))%nat).
  { unfold f2. destruct prev as [q|]; [|apply app_length]. rewrite set3_length; [apply app_length|].
    rewrite app_length. specialize (PQ q eq_refl). lia. }
  rewrite (IH (fun y f' Hy => EP y f' (or_intror Hy)) f2 (Some (length f))).
  - rewrite L2. reflexivity.
  - rewrite L2. lia.
  - intros q Eq. assert (q = length f) as -> by congruence. rewrite L2. pose proof (LB 0 (length f)). lia.
Qed.

End ChainForm.

Lemma dg_form3 : forall d, block_form (write_dgb3 d) (dg_b d).
Proof.
  intros d. split; [|split].
  - intros f NE. unfold write_dgb3, dg_b.
    assert (L1 : length (f ++ header3_bytes false ty_dg3 28 [0; 0; 0; d3_link d] ++ dg3_body d) = (length f + 28)%nat).
    { rewrite !app_length, header3_length, dg3_body_length. cbn [length]. lia. }
    rewrite (chain_b_form write_cg3 cg_b); [|apply Forall_forall; intros g _; apply cg_form3|lia].
    rewrite L1. cbn [bind]. rewrite <- !app_assoc.
    pose proof (link3_at f ty_dg3 28 [0] [0; d3_link d] (dg3_body d ++ chain_b (map cg_b (d3_cgs d)) (length f + 28))
       (first_b (d3_cgs d) (length f + 28))) as K. cbn [app length] in K. rewrite K. reflexivity.
  - intros l n. unfold dg_b. rewrite !app_length, !header3_length, dg3_body_length. cbn [length]. split; lia.
  - intros f l m x. unfold dg_b. rewrite <- !app_assoc.
    match goal with |- set3 (f ++ header3_bytes _ _ _ (m :: ?ls) ++ ?r) _ _ _ = _ =>
      pose proof (set3_at f ty_dg3 28 [] m ls r l) as K end.
    cbn [app length] in K. exact K.
Qed.

Lemma hd_form3 : forall h (f : file), (0 < length f)%nat -> write_hd3 h f = Ok (f ++ hd_b h (length f), length f).
Proof.
  intros h f NE. unfold write_hd3. cbn zeta.
  set (s0 := f ++ header3_bytes false ty_hd3 202 [0; 0; 0] ++ hd3_body h).
  assert (US : update_size3 false (mkB (length f) ty_hd3 202 [0; 0; 0])
      (N.of_nat (length (header3_bytes false ty_hd3 202 [0; 0; 0] ++ hd3_body h))) s0 =
      Ok (f ++ header3_bytes false ty_hd3 208 [0; 0; 0] ++ hd3_body h, mkB (length f) ty_hd3 208 [0; 0; 0])).
  { unfold update_size3. cbn [b_pos b_len b_type b_links].
    replace ((length f =? 0)%nat) with false by (symmetry; apply Nat.eqb_neq; lia).
    rewrite app_length, header3_length, hd3_body_length. cbn [length].
    change (202 =? w32 (N.of_nat (4 + 4 * 3 + 192))) with false. cbv iota.
    change (w16 (N.of_nat (4 + 4 * 3 + 192))) with 208. unfold s0. rewrite put_size3. reflexivity. }
  rewrite US. cbn [bind]. clear US s0.
  assert (L1 : length (f ++ header3_bytes false ty_hd3 208 [0; 0; 0] ++ hd3_body h) = (length f + 208)%nat).
  { rewrite !app_length, header3_length, hd3_body_length. cbn [length]. lia. }
  pose proof (appends_tail _ (appends_text (h3_comment h))
     (f ++ header3_bytes false ty_hd3 208 [0; 0; 0] ++ hd3_body h) ltac:(lia)) as E2. apply ok_inj in E2. rewrite E2, L1.
  fold (text_b (h3_comment h) (length f + 208)). fold (text_l (h3_comment h) (length f + 208)).
  set (xt := text_b (h3_comment h) (length f + 208)). set (lt := text_l (h3_comment h) (length f + 208)).
  rewrite <- !app_assoc.
  pose proof (link3_at f ty_hd3 208 [0] [0] (hd3_body h ++ xt) lt) as K1. cbn [app length] in K1. rewrite K1.
  assert (L2 : length (f ++ header3_bytes false ty_hd3 208 [0; lt; 0] ++ hd3_body h ++ xt) = (length f + 208 + length xt)%nat).
  { rewrite !app_length, header3_length, hd3_body_length. cbn [length]. lia. }
  rewrite (chain_b_form write_dgb3 dg_b); [|apply Forall_forall; intros d _; apply dg_form3|lia].
  rewrite L2. cbn [bind]. rewrite <- !app_assoc.
  pose proof (link3_at f ty_hd3 208 [] [lt; 0] (hd3_body h ++ xt ++ chain_b (map dg_b (h3_dgs h)) (length f + 208 + length xt))
     (first_b (h3_dgs h) (length f + 208 + length xt))) as K. cbn [app length] in K. rewrite K. unfold hd_b. fold xt. fold lt. reflexivity.
Qed.

(** The positions the objects remember. *)
Definition dg_places_b (d : dgb3) (n : nat) : list (nat * unit) :=
  map (fun '(m, _) => (m, tt)) (combine (places_b (map cg_b (d3_cgs d)) (n + 28)) (d3_cgs d)).
Definition hd_places_b (h : hd3) (n : nat) : list (nat * list (nat * unit)) :=
  map (fun '(m, d) => (m, dg_places_b d m))
    (combine (places_b (map dg_b (h3_dgs h)) (n + 208 + length (text_b (h3_comment h) (n + 208)))) (h3_dgs h)).

Lemma hd_places_form : forall h (f : file), (0 < length f)%nat -> hd3_places h f = hd_places_b h (length f).
Proof.
  intros h f NE. unfold hd3_places, hd_places_b. cbn zeta.
  assert (L1 : length (f ++ header3_bytes false ty_hd3 208 [0; 0; 0] ++ hd3_body h) = (length f + 208)%nat).
  { rewrite !app_length, header3_length, hd3_body_length. cbn [length]. lia. }
  pose proof (appends_tail _ (appends_text (h3_comment h))
     (f ++ header3_bytes false ty_hd3 208 [0; 0; 0] ++ hd3_body h) ltac:(lia)) as E2. apply ok_inj in E2. rewrite E2, L1.
  fold (text_b (h3_comment h) (length f + 208)). fold (text_l (h3_comment h) (length f + 208)).
  set (xt := text_b (h3_comment h) (length f + 208)). set (lt := text_l (h3_comment h) (length f + 208)).
  rewrite <- !app_assoc.
  pose proof (link3_at f ty_hd3 208 [0] [0] (hd3_body h ++ xt) lt) as K1. cbn [app length] in K1. rewrite K1.
  assert (L2 : length (f ++ header3_bytes false ty_hd3 208 [0; lt; 0] ++ hd3_body h ++ xt) = (length f + 208 + length xt)%nat).
  { rewrite !app_length, header3_length, hd3_body_length. cbn [length]. lia. }
  rewrite (chain_places_form write_dgb3 dg_b dg3_places dg_places_b); [rewrite L2; reflexivity| | |lia|discriminate].
  - apply Forall_forall. intros d _. apply dg_form3.
  - intros d g _ NG. unfold dg3_places, dg_places_b.
    assert (L3 : length (g ++ header3_bytes false ty_dg3 28 [0; 0; 0; d3_link d] ++ dg3_body d) = (length g + 28)%nat).
    { rewrite !app_length, header3_length, dg3_body_length. cbn [length]. lia. }
    rewrite (chain_places_form write_cg3 cg_b _ (fun _ _ => tt)); [rewrite L3; reflexivity| |auto|lia|discriminate].
    apply Forall_forall. intros c _. apply cg_form3.
Qed.
