(** Rewriting single fields of the blocks of an MDF3 file in place. *)
From Verif Require Import Base BlockModel BlockSpec BlockProofs BlockProofs3 BlockProofs4 ConvModel CcModel Cc3Proofs MetaModel MetaProofs
  IdentModel Meta3Model Meta3Spec Meta3Proofs Meta3Proofs2 MeasModel MeasProofs MeasProofs2 Meas3Model Meas3Proofs.
Local Open Scope N_scope.

Definition steady (b : blockf) : Prop := forall l n, length (b l n) = length (b 0%N n).

Lemma steady_cg : forall g, steady (cg_b g).
Proof. intros g l n. apply (proj1 (proj2 (cg_form3 g))). Qed.
Lemma steady_dg : forall d, steady (dg_b d).
Proof. intros d l n. apply (proj1 (proj2 (dg_form3 d))). Qed.

Lemma steady_cgs : forall l, Forall steady (map cg_b l).
Proof. intros l. apply Forall_forall. intros b Hb. apply in_map_iff in Hb. destruct Hb as (c & <- & _). apply steady_cg. Qed.
Lemma steady_dgs : forall l, Forall steady (map dg_b l).
Proof. intros l. apply Forall_forall. intros b Hb. apply in_map_iff in Hb. destruct Hb as (c & <- & _). apply steady_dg. Qed.

(** Writing [bs] at [at_ n] turns the block [b] at [n] into [b']. *)
Definition edit (b b' : blockf) (at_ : nat -> nat) (bs : list N) : Prop :=
  (forall l n, length (b' l n) = length (b l n)) /\
  forall l (pre post : file),
    put (pre ++ b l (length pre) ++ post) (at_ (length pre)) bs = pre ++ b' l (length pre) ++ post.

Lemma chain_edit : forall l1 b b' l2 at_ bs, edit b b' at_ bs -> Forall steady l1 -> steady b ->
  (forall n, places_b (l1 ++ b' :: l2) n = places_b (l1 ++ b :: l2) n) /\
  (forall n, length (chain_b (l1 ++ b' :: l2) n) = length (chain_b (l1 ++ b :: l2) n)) /\
  forall pre post : file,
    put (pre ++ chain_b (l1 ++ b :: l2) (length pre) ++ post)
      (at_ (nth (length l1) (places_b (l1 ++ b :: l2) (length pre)) 0%nat)) bs =
    pre ++ chain_b (l1 ++ b' :: l2) (length pre) ++ post.
Proof.
  intros l1 b b' l2 at_ bs [EL E] F SB. induction F as [|a r SA F (IP & IL & IH)].
  - cbn [app length nth places_b chain_b]. split; [intros n; rewrite EL; reflexivity|].
    split; [intros n; rewrite !app_length, !EL; reflexivity|].
    intros pre post. rewrite <- !app_assoc, E, EL. reflexivity.
  - cbn [app length nth places_b chain_b]. split; [intros n; rewrite IP; reflexivity|].
    assert (M : forall n : nat, match r ++ b' :: l2 with [] => 0 | _ => N.of_nat n end = match r ++ b :: l2 with [] => 0 | _ => N.of_nat n end).
    { intros n. destruct r; reflexivity. }
    split; [intros n; rewrite !app_length, IL, M; reflexivity|].
    intros pre post. rewrite M. set (v := match r ++ b :: l2 with [] => 0 | _ => _ end).
    specialize (IH (pre ++ a v (length pre)) post). rewrite app_length, (SA v (length pre)) in IH.
    rewrite <- !app_assoc in *. exact IH.
Qed.

(** ** The single fields *)

Definition set_nof (v : N) (g : cg3) : cg3 := mkCg3 (g3_id g) (g3_size g) v (g3_sr g) (g3_cns g) (g3_comment g).

Lemma edit_cg : forall g v, edit (cg_b g) (cg_b (set_nof v g)) (fun n => (n + 22)%nat) (le_bytes 4 v).
Proof.
  intros g v. split.
  - intros l n. unfold cg_b. rewrite !app_length, !header3_length, !cg3_body_length. reflexivity.
  - intros l pre post. unfold cg_b, cg3_body, set_nof, fields_bytes. cbn [g3_id g3_size g3_nof g3_sr g3_cns g3_comment map concat].
    match goal with |- context [header3_bytes false ty_cg3 30 ?ls] => set (H := header3_bytes false ty_cg3 30 ls) end.
    assert (LH : length H = 16%nat) by (unfold H; rewrite header3_length; reflexivity). clearbody H.
    rewrite <- !app_assoc.
    set (A := pre ++ H ++ le_bytes 2 (g3_id g) ++ le_bytes 2 (w16 (N.of_nat (length (g3_cns g)))) ++ le_bytes 2 (g3_size g)).
    assert (LA : length A = (length pre + 22)%nat).
    { unfold A. rewrite !app_length, !le_bytes_length, LH. lia. }
    rewrite <- LA.
    match goal with |- put (pre ++ H ++ ?a ++ ?b ++ ?c ++ ?d ++ ?r) _ _ = _ =>
      replace (pre ++ H ++ a ++ b ++ c ++ d ++ r) with (A ++ d ++ r) by (unfold A; rewrite <- !app_assoc; reflexivity) end.
    rewrite put_mid by (rewrite !le_bytes_length; reflexivity). unfold A. rewrite <- !app_assoc. reflexivity.
Qed.

Definition set_dlink (v : N) (d : dgb3) : dgb3 := mkDgb3 (d3_ids d) v (d3_cgs d).

Lemma edit_link : forall d v, edit (dg_b d) (dg_b (set_dlink v d)) (fun n => (n + 16)%nat) (le_bytes 4 (w32 v)).
Proof.
  intros d v. split.
  - intros l n. unfold dg_b. rewrite !app_length, !header3_length, !dg3_body_length. reflexivity.
  - intros l pre post. unfold dg_b, set_dlink. cbn [d3_cgs d3_link].
    change (dg3_body {| d3_ids := d3_ids d; d3_link := v; d3_cgs := d3_cgs d |}) with (dg3_body d).
    rewrite <- !app_assoc.
    match goal with |- put (pre ++ header3_bytes _ _ _ [?a; ?b; ?c; ?m] ++ ?r) _ _ = _ =>
      pose proof (set3_at pre ty_dg3 28 [a; b; c] m [] r v) as K end.
    unfold set3 in K. cbn [app length] in K. replace (length pre + 4 + 4 * 3)%nat with (length pre + 16)%nat in K by lia. exact K.
Qed.

Definition set_cgs (cgs : list cg3) (d : dgb3) : dgb3 := mkDgb3 (d3_ids d) (d3_link d) cgs.

Lemma dg3_body_cgs : forall d d', length (d3_cgs d') = length (d3_cgs d) -> dg3_body d' = dg3_body d.
Proof. intros d d' E. unfold dg3_body, ids_for. rewrite E. reflexivity. Qed.

Lemma edit_dg_cg : forall d l1 g l2 v, d3_cgs d = l1 ++ g :: l2 ->
  edit (dg_b d) (dg_b (set_cgs (l1 ++ set_nof v g :: l2) d))
    (fun n => (nth (length l1) (places_b (map cg_b (d3_cgs d)) (n + 28)) 0 + 22)%nat) (le_bytes 4 v).
Proof.
  intros d l1 g l2 v E.
  destruct (chain_edit (map cg_b l1) _ _ (map cg_b l2) _ _ (edit_cg g v)) as (EP & EL & EC); [apply steady_cgs|apply steady_cg|].
  split.
  - intros l n. unfold dg_b. cbn [set_cgs d3_cgs d3_link]. rewrite E, !map_app. cbn [map].
    rewrite !app_length, !header3_length, !dg3_body_length, EL. reflexivity.
  - intros l pre post. unfold dg_b. cbn [set_cgs d3_cgs d3_link].
    rewrite (dg3_body_cgs d (set_cgs (l1 ++ set_nof v g :: l2) d)) by (cbn [set_cgs d3_cgs]; rewrite E, !app_length; reflexivity).
    rewrite E, !map_app. cbn [map].
    assert (FB : first_b (l1 ++ set_nof v g :: l2) (length pre + 28) = first_b (l1 ++ g :: l2) (length pre + 28)) by (destruct l1; reflexivity).
    rewrite FB. match goal with |- context [header3_bytes false ty_dg3 28 ?ls] => set (B := header3_bytes false ty_dg3 28 ls ++ dg3_body d) end.
    assert (LB : length (pre ++ B) = (length pre + 28)%nat).
    { unfold B. rewrite !app_length, header3_length, dg3_body_length. cbn [length]. lia. }
    specialize (EC (pre ++ B) post). rewrite LB in EC. rewrite (map_length cg_b) in EC.
    unfold B in EC. rewrite <- !app_assoc in *. exact EC.
Qed.

(** Lengths and places do not depend on the numbers in the blocks. *)
Definition cg_alike (g g' : cg3) : Prop := g3_cns g' = g3_cns g /\ g3_comment g' = g3_comment g.
Definition dg_alike (d d' : dgb3) : Prop := Forall2 cg_alike (d3_cgs d) (d3_cgs d').
Definition hd_alike (h h' : hd3) : Prop := h3_comment h' = h3_comment h /\ Forall2 dg_alike (h3_dgs h) (h3_dgs h').

Definition b_alike (b b' : blockf) : Prop := forall l n, length (b' l n) = length (b l n).

Lemma chain_alike : forall bs bs', Forall2 b_alike bs bs' -> Forall steady bs -> Forall steady bs' -> forall n,
  places_b bs' n = places_b bs n /\ length (chain_b bs' n) = length (chain_b bs n).
Proof.
  intros bs bs' F. induction F as [|b b' r r' H F IH]; intros S1 S2 n; [auto|].
  cbn [places_b chain_b]. rewrite !app_length, H.
  destruct (IH (Forall_inv_tail S1) (Forall_inv_tail S2) (n + length (b 0%N n))%nat) as [-> ->].
  split; [reflexivity|]. f_equal. rewrite H. apply Forall_inv in S1. rewrite (S1 _ n), (S1 (match r with [] => _ | _ => _ end) n). reflexivity.
Qed.

Lemma cgs_alike : forall l l', Forall2 cg_alike l l' -> Forall2 b_alike (map cg_b l) (map cg_b l').
Proof.
  intros l l' F. induction F as [|g g' r r' [E1 E2] F IH]; cbn [map]; constructor; auto.
  intros k n. unfold cg_b. rewrite E1, E2, !app_length, !header3_length, !cg3_body_length. reflexivity.
Qed.

Lemma dgb_alike : forall d d', dg_alike d d' -> b_alike (dg_b d) (dg_b d') /\ forall n, dg_places_b d' n = dg_places_b d n.
Proof.
  intros d d' F. split.
  - intros l n. unfold dg_b. rewrite !app_length, !header3_length, !dg3_body_length.
    destruct (chain_alike _ _ (cgs_alike _ _ F) (steady_cgs _) (steady_cgs _) (n + 28)) as [_ ->]. reflexivity.
  - intros n. unfold dg_places_b.
    destruct (chain_alike _ _ (cgs_alike _ _ F) (steady_cgs _) (steady_cgs _) (n + 28)) as [-> _].
    generalize (places_b (map cg_b (d3_cgs d)) (n + 28)). unfold dg_alike in F. revert F. generalize (d3_cgs d) (d3_cgs d'). clear.
    intros l l' F. induction F as [|x y r r' _ F IH]; intros [|p ps]; try reflexivity. cbn [combine map]. rewrite IH. reflexivity.
Qed.

Lemma dgs_alike : forall l l', Forall2 dg_alike l l' -> Forall2 b_alike (map dg_b l) (map dg_b l').
Proof. intros l l' F. induction F as [|g g' r r' E F IH]; cbn [map]; constructor; auto. apply dgb_alike. exact E. Qed.

Lemma hd_alike_same : forall h h' n, hd_alike h h' -> length (hd_b h' n) = length (hd_b h n) /\ hd_places_b h' n = hd_places_b h n.
Proof.
  intros h h' n [EC F]. unfold hd_b, hd_places_b. rewrite EC.
  set (n' := (n + 208 + length (text_b (h3_comment h) (n + 208)))%nat).
  destruct (chain_alike _ _ (dgs_alike _ _ F) (steady_dgs _) (steady_dgs _) n') as [EP EL]. split.
  - rewrite !app_length, !header3_length, !hd3_body_length, EL. reflexivity.
  - rewrite EP. generalize (places_b (map dg_b (h3_dgs h)) n'). revert F. generalize (h3_dgs h) (h3_dgs h'). clear.
    intros l l' F. induction F as [|x y r r' E F IH]; intros [|p ps]; try reflexivity. cbn [combine map]. rewrite IH.
    rewrite (proj2 (dgb_alike _ _ E) p). reflexivity.
Qed.

(** ** A data group of a header *)

(** Where the data groups begin. *)
Definition dgs_at (h : hd3) (n : nat) : nat := (n + 208 + length (text_b (h3_comment h) (n + 208)))%nat.

Lemma hd3_body_dgs : forall h ds, length ds = length (h3_dgs h) -> hd3_body (set_dgs3 h ds) = hd3_body h.
Proof. intros h ds E. unfold hd3_body. cbn [set_dgs3 h3_time h3_author h3_org h3_project h3_subject h3_dgs]. rewrite E. reflexivity. Qed.

Lemma hd_edit : forall h l1 d d' l2 at_ bs (pre post : file), h3_dgs h = l1 ++ d :: l2 -> edit (dg_b d) (dg_b d') at_ bs ->
  put (pre ++ hd_b h (length pre) ++ post)
    (at_ (nth (length l1) (places_b (map dg_b (h3_dgs h)) (dgs_at h (length pre))) 0%nat)) bs =
  pre ++ hd_b (set_dgs3 h (l1 ++ d' :: l2)) (length pre) ++ post.
Proof.
  intros h l1 d d' l2 at_ bs pre post E ED.
  destruct (chain_edit (map dg_b l1) _ _ (map dg_b l2) _ _ ED (steady_dgs _) (steady_dg _)) as (_ & _ & EC).
  unfold hd_b. rewrite hd3_body_dgs by (rewrite E, !app_length; reflexivity).
  cbn [set_dgs3 h3_comment h3_dgs]. rewrite E, !map_app. cbn [map].
  unfold dgs_at.
  set (xt := text_b (h3_comment h) (length pre + 208)).
  assert (FB : forall n, first_b (l1 ++ d' :: l2) n = first_b (l1 ++ d :: l2) n) by (intros; destruct l1; reflexivity).
  rewrite FB. match goal with |- context [header3_bytes false ty_hd3 208 ?ls] => set (B := header3_bytes false ty_hd3 208 ls ++ hd3_body h ++ xt) end.
  assert (LB : length (pre ++ B) = (length pre + 208 + length xt)%nat).
  { unfold B. rewrite !app_length, header3_length, hd3_body_length. cbn [length]. lia. }
  specialize (EC (pre ++ B) post). rewrite LB in EC. rewrite (map_length dg_b) in EC.
  unfold B in EC. rewrite <- !app_assoc in *. exact EC.
Qed.

(** ** The fields of the header *)

Lemma puts_seq : forall news olds (pre post : file) j, Forall2 (fun a b : list N => length a = length b) news olds ->
  puts (pre ++ concat olds ++ post) (firstn j (seq_writes (length pre) news)) =
  pre ++ concat (firstn j news ++ skipn j olds) ++ post.
Proof.
  intros news olds pre post j F. revert pre j. induction F as [|a b news olds L F IH]; intros pre j.
  - cbn [seq_writes]. rewrite !firstn_nil, skipn_nil. reflexivity.
  - destruct j as [|j]; [reflexivity|]. cbn [seq_writes firstn skipn concat app]. rewrite puts_cons.
    rewrite <- app_assoc, put_mid by exact L. rewrite (app_assoc pre a).
    rewrite <- (app_length pre a). rewrite IH, <- !app_assoc. reflexivity.
Qed.

Lemma hd3_parts_body : forall h, concat (hd3_parts h) = hd3_body h.
Proof.
  intros h. unfold hd3_parts, hd3_body, fields_bytes. cbn [concat map]. rewrite !app_nil_r, <- !app_assoc. reflexivity.
Qed.

(** The time after the first [j] fields of a header have been rewritten. *)
Definition mix_time (j : nat) (old new : time3) : time3 :=
  let pick {A} (k : nat) (f : time3 -> A) := f (if (k <=? j)%nat then new else old) in
  mkT3 (pick 2%nat t3_date) (pick 3%nat t3_time) (pick 8%nat t3_ns) (pick 9%nat t3_offset) (pick 10%nat t3_quality) (pick 11%nat t3_timer).

Lemma hd_time_edit : forall h old new (pre post : file) j,
  puts (pre ++ hd_b (set_time3 old h) (length pre) ++ post) (firstn j (seq_writes (length pre + 16) (hd3_parts (set_time3 new h)))) =
  pre ++ hd_b (set_time3 (mix_time j old new) h) (length pre) ++ post.
Proof.
  intros h old new pre post j. unfold hd_b. cbn [set_time3 h3_dgs h3_comment].
  rewrite <- !hd3_parts_body. rewrite <- !app_assoc.
  match goal with |- context [header3_bytes false ty_hd3 208 ?ls] => set (H := header3_bytes false ty_hd3 208 ls) end.
  assert (LH : length (pre ++ H) = (length pre + 16)%nat) by (unfold H; rewrite app_length, header3_length; reflexivity).
  rewrite !(app_assoc pre H). rewrite <- LH. rewrite puts_seq.
  - f_equal. f_equal. f_equal. unfold hd3_parts.
    cbn [set_time3 h3_time h3_author h3_org h3_project h3_subject h3_dgs].
    unfold mix_time. cbn [t3_date t3_time t3_ns t3_offset t3_quality t3_timer].
    do 11 (destruct j as [|j]; [reflexivity|]). cbn [firstn skipn]. rewrite firstn_nil, skipn_nil. reflexivity.
  - unfold hd3_parts. repeat constructor; rewrite ?str_bytes_length, ?le_bytes_length; reflexivity.
Qed.

Lemma mix_time_all : forall j old new, (11 <= j)%nat -> mix_time j old new = new.
Proof. intros j old [a b c d e f] L. do 11 (destruct j as [|j]; [lia|]). reflexivity. Qed.

(** Rewriting the fields of a data group with what they are. *)
Lemma dg_same_edit : forall d l (pre post : file) j,
  puts (pre ++ dg_b d l (length pre) ++ post)
    (firstn j (seq_writes (length pre + 20) [le_bytes 2 (w16 (N.of_nat (length (d3_cgs d)))); le_bytes 2 (ids_for d); le_bytes 4 0])) =
  pre ++ dg_b d l (length pre) ++ post.
Proof.
  intros d l pre post j. unfold dg_b.
  assert (EB : dg3_body d = concat [le_bytes 2 (w16 (N.of_nat (length (d3_cgs d)))); le_bytes 2 (ids_for d); le_bytes 4 0]) by reflexivity.
  rewrite EB. clear EB. set (ps := [_; _; _]). rewrite <- !app_assoc.
  match goal with |- context [header3_bytes false ty_dg3 28 ?ls] => set (H := header3_bytes false ty_dg3 28 ls) end.
  assert (LH : length (pre ++ H) = (length pre + 20)%nat) by (unfold H; rewrite app_length, header3_length; reflexivity).
  rewrite !(app_assoc pre H). rewrite <- LH, puts_seq.
  - rewrite firstn_skipn. reflexivity.
  - repeat constructor.
Qed.

Lemma chain_at : forall l1 b l2 n, Forall steady l1 -> exists A C l,
  chain_b (l1 ++ b :: l2) n = A ++ b l (n + length A)%nat ++ C /\
  nth (length l1) (places_b (l1 ++ b :: l2) n) 0%nat = (n + length A)%nat.
Proof.
  intros l1 b l2 n F. revert n. induction F as [|a r SA F IH]; intros n; cbn [app chain_b places_b length nth].
  - exists [], (chain_b l2 (n + length (b 0%N n))%nat), (match l2 with [] => 0 | _ => N.of_nat (n + length (b 0%N n)) end).
    cbn [app length]. rewrite !Nat.add_0_r. split; reflexivity.
  - destruct (IH (n + length (a 0%N n))%nat) as (A & C & l & E1 & E2).
    set (v := match r ++ b :: l2 with [] => 0 | _ => _ end).
    exists (a v n ++ A), C, l. rewrite E1, app_length, (SA v n), <- app_assoc, Nat.add_assoc. split; [reflexivity|exact E2].
Qed.

Lemma hd_same_edit : forall h l1 d l2 (pre post : file) j, h3_dgs h = l1 ++ d :: l2 ->
  puts (pre ++ hd_b h (length pre) ++ post)
    (firstn j (seq_writes (nth (length l1) (places_b (map dg_b (h3_dgs h)) (dgs_at h (length pre))) 0%nat + 20)
       [le_bytes 2 (w16 (N.of_nat (length (d3_cgs d)))); le_bytes 2 (ids_for d); le_bytes 4 0])) =
  pre ++ hd_b h (length pre) ++ post.
Proof.
  intros h l1 d l2 pre post j E. unfold hd_b, dgs_at. rewrite E, !map_app. cbn [map].
  set (xt := text_b (h3_comment h) (length pre + 208)).
  destruct (chain_at (map dg_b l1) (dg_b d) (map dg_b l2) (length pre + 208 + length xt) (steady_dgs _)) as (A & C & l & E1 & E2).
  rewrite (map_length dg_b) in E2. rewrite E1, E2.
  match goal with |- context [header3_bytes false ty_hd3 208 ?ls] => set (B := header3_bytes false ty_hd3 208 ls ++ hd3_body h ++ xt) end.
  assert (LB : length (pre ++ B ++ A) = (length pre + 208 + length xt + length A)%nat).
  { unfold B. rewrite !app_length, header3_length, hd3_body_length. cbn [length]. lia. }
  pose proof (dg_same_edit d l (pre ++ B ++ A) (C ++ post) j) as K. rewrite LB in K.
  unfold B in K. rewrite <- !app_assoc in *. exact K.
Qed.
