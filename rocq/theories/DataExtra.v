(** The lemmas the theorems of DataProps rest on directly. *)
From Verif Require Import Base BlockModel BlockSpec BlockProofs BlockProofs2 BlockProofs3
  DataModel DataSpec TransProofs DataProofs ListProofs StoreProofs StoreProofs2 SignalProofs.
From Coq Require Import Lia.
Local Open Scope N_scope.

Lemma firstn_app_exact : forall (a b : list N) n, n = length a -> firstn n (a ++ b) = a.
Proof. intros a b n ->. rewrite firstn_app, firstn_all, Nat.sub_diag. cbn. apply app_nil_r. Qed.

Lemma skipn_app_exact : forall (a b : list N) n, n = length a -> skipn n (a ++ b) = b.
Proof. intros a b n ->. rewrite skipn_app, skipn_all, Nat.sub_diag. reflexivity. Qed.

Lemma agree_firstn : forall f f', agree f f' 0 (length f) -> firstn (length f) f' = f.
Proof.
  intros f f' [AL A]. apply (nth_ext _ _ 0 0).
  - rewrite firstn_length. lia.
  - intros j J. rewrite firstn_length in J.
    assert (E : nth_error (firstn (length f) f') j = nth_error f j).
    { rewrite <- (A j) by lia. rewrite <- (firstn_skipn (length f) f') at 2.
      rewrite nth_error_app1; [reflexivity|]. rewrite firstn_length. lia. }
    destruct (nth_error f j) as [c|] eqn:N1; [|apply nth_error_None in N1; lia].
    rewrite (nth_error_nth _ _ _ E), (nth_error_nth _ _ _ N1). reflexivity.
Qed.

Lemma set_nth_zero : forall l n, nth n l 0 = 0 -> set_nth l n 0 = l.
Proof.
  induction l as [|a l IH]; intros [|n] E; cbn [set_nth nth] in *; auto; [congruence|]. f_equal. auto.
Qed.

Lemma all_bytes_nth : forall inflate f ds xs k, all_bytes inflate f ds = Ok xs -> (k < length xs)%nat ->
  length ds = length xs -> map data_size ds = map (fun x => N.of_nat (length x)) xs ->
  exists d, nth_error ds k = Some d /\ block_bytes inflate f d = Ok (nth k xs []) /\
    data_size d = N.of_nat (length (nth k xs [])).
Proof.
  intros inflate f. induction ds as [|d ds IH]; intros [|x xs] k A K L S; cbn [length] in *; try lia.
  cbn [all_bytes] in A. destruct (block_bytes inflate f d) as [y| |] eqn:E1; try discriminate. cbn [bind] in A.
  destruct (all_bytes inflate f ds) as [ys| |] eqn:E2; try discriminate. cbn [bind] in A. injection A as -> ->.
  cbn [map] in S. injection S as S1 S2. destruct k as [|k].
  - exists d. auto.
  - cbn [nth_error nth]. apply IH; auto; lia.
Qed.

Section Extra.
Variable deflate : list N -> list N.
Variable inflate : list N -> nat -> list N.
Hypothesis Z : zlib_ok deflate inflate.

(** One block, written at the end of a file and read back. *)
Lemma block_stored : forall k x f, (0 < length f)%nat -> made_from deflate k x ->
  exists f' b, write_dblk k f = Ok (f', b) /\ firstn (length f) f' = f /\
    (N.of_nat (length f') < 2 ^ 63 -> N.of_nat (length x) < 2 ^ 63 ->
     exists d, read_blocks 1 f' (N.of_nat (b_pos b)) = Some (Ok [d]) /\
       data_size d = N.of_nat (length x) /\ block_bytes inflate f' d = Ok x /\
       forall pre post, N.of_nat (length (pre ++ x ++ post)) < 2 ^ 64 ->
       forall old, length old = length x ->
       copy_block inflate f' d (pre ++ old ++ post, N.of_nat (length pre)) =
       Ok (pre ++ x ++ post, N.of_nat (length (pre ++ x)))).
Proof.
  intros k x f LF M. rewrite (write_dblk_spec k f LF). eexists _, _. split; [reflexivity|]. split.
  { apply firstn_app_exact. reflexivity. }
  intros L LX. cbn [b_pos]. set (p := (length f + pad8 (length f))%nat) in *.
  set (f1 := f ++ repeat 0 (pad8 (length f)) ++ header_bytes (dblk_type k) (N.of_nat (24 + length (dblk_body k))) [] ++ dblk_body k) in *.
  assert (D1 : dblk_at f1 p k).
  { split; [unfold p; lia|]. unfold f1. rewrite app_assoc.
    pose proof (holds_end (f ++ repeat 0 (pad8 (length f)))
      (header_bytes (dblk_type k) (N.of_nat (24 + length (dblk_body k))) [] ++ dblk_body k) []) as X.
    rewrite app_nil_r in X. rewrite app_length, repeat_length in X. exact X. }
  destruct (dblk_read deflate inflate Z f1 p k x M D1 L LX) as (d & R & G1 & G2 & G3).
  exists d. split; [apply read_blocks_one; [exact R|eapply pos64_pos; eauto]|]. split; [auto|]. split; [auto|].
  intros pre post LL old LO. rewrite !app_length in LL. rewrite G3 by (rewrite !app_length; lia).
  rewrite Nat2N.id. f_equal. f_equal.
  - unfold put. rewrite firstn_app_exact by reflexivity.
    replace (length pre - length (pre ++ old ++ post))%nat with 0%nat by (rewrite app_length; lia).
    cbn [repeat app].
    f_equal. f_equal. rewrite <- LO, app_assoc. rewrite <- app_length. apply skipn_app_exact. reflexivity.
  - rewrite app_length. lia.
Qed.

(** The fields of a packed block as read. *)
Lemma packed_fields : forall orig t p x f, (0 < length f)%nat -> x <> [] -> type_ok 2 orig -> p < 2 ^ 32 ->
  fits deflate (if t =? 1 then transpose (N.to_nat p) x else x) ->
  exists f' b, write_dz (dz_pack deflate orig t p x) f = Ok (f', b) /\
    (N.of_nat (length f') < 2 ^ 63 -> N.of_nat (length x) < 2 ^ 63 ->
     exists q ty param, let stored := deflate (if t =? 1 then transpose (N.to_nat p) x else x) in
       read_dz f' (b_pos b) = Ok (Zip q ty param (N.of_nat (length x)) (N.of_nat (length stored))) /\
       slice q (length stored) f' = stored /\ b_len b = 48 + N.of_nat (length stored) /\
       length f' = (b_pos b + N.to_nat (b_len b))%nat).
Proof.
  intros orig t p x f LF NE T P F. pose proof (dz_pack_cons deflate orig t p x NE F) as PK.
  pose proof (write_dblk_spec (BZip (dz_pack deflate orig t p x)) f LF) as W.
  set (z := dz_pack deflate orig t p x) in *. cbn in PK. destruct PK as (K1 & K2 & K3 & K4 & K5 & K6).
  unfold write_dblk, dblk_type, dblk_body in W. cbn [dblk_parts fst snd] in W.
  unfold write_dz. rewrite W. eexists _, _. split; [reflexivity|]. intros L LX. cbn [b_pos b_len].
  set (q := (length f + pad8 (length f))%nat) in *.
  set (f1 := f ++ repeat 0 (pad8 (length f)) ++ header_bytes ty_dz (N.of_nat (24 + length (dz_body z))) [] ++ dz_body z) in *.
  assert (LZ : length (dz_body z) = (24 + length (dz_data z))%nat) by apply dz_body_length.
  assert (LF1 : length f1 = (q + (24 + (24 + length (dz_data z))))%nat).
  { unfold f1, q. rewrite !app_length, header_bytes_length, repeat_length, LZ. cbn [length]. lia. }
  assert (H : holds f1 q (header_bytes ty_dz (N.of_nat (24 + length (dz_body z))) [] ++ dz_body z)).
  { unfold f1. rewrite app_assoc.
    pose proof (holds_end (f ++ repeat 0 (pad8 (length f)))
      (header_bytes ty_dz (N.of_nat (24 + length (dz_body z))) [] ++ dz_body z) []) as X.
    rewrite app_nil_r in X. rewrite app_length, repeat_length in X. exact X. }
  assert (ZO : dz_ok z).
  { constructor.
    - rewrite K1; auto.
    - rewrite K2. destruct ((t =? 1) && negb (p =? 0)); reflexivity.
    - rewrite K3. destruct (t =? 1); [auto|reflexivity].
    - rewrite K4. lia.
    - rewrite K5. lia. }
  assert (LB : N.of_nat (24 + length (dz_body z)) < 2 ^ 64) by lia.
  destruct (read_dz_at f1 q _ z ZO LB H) as [R HD].
  exists (q + 48)%nat, (dz_type z), (dz_param z). cbv zeta.
  rewrite R, K4, K5, <- K6. split; [reflexivity|]. split; [|split].
  - apply holds_slice_eq. exact HD.
  - rewrite LZ. lia.
  - rewrite LF1, LZ, Nat2N.id. lia.
Qed.

(** A list block and its data blocks. *)
Lemma list_stored : forall d ks xs f, (0 < length f)%nat -> dl_flags d < 256 -> dl_equal d < 2 ^ 64 ->
  Forall (fun o => o < 2 ^ 64) (dl_offs d) -> N.of_nat (length ks) < 2 ^ 32 ->
  Forall2 (made_from deflate) ks xs ->
  exists f' b, write_dl d ks f = Ok (f', b) /\ firstn (length f) f' = f /\
    (N.of_nat (length f') < 2 ^ 63 -> N.of_nat (length (concat xs)) < 2 ^ 63 ->
     exists i, read_dl f' (b_pos b) = Ok i /\ di_flags i = dl_flags d /\ di_nof i = N.of_nat (length xs) /\
       di_next i = 0 /\
       (N.testbit (dl_flags d) 0 = true -> di_equal i = dl_equal d) /\
       (N.testbit (dl_flags d) 0 = false -> di_offs i = map (fun j => nth j (dl_offs d) 0) (seq 0 (length xs))) /\
       map data_size (di_blocks i) = map (fun x => N.of_nat (length x)) xs /\
       all_bytes inflate f' (di_blocks i) = Ok xs).
Proof.
  intros d ks xs f LF F1 F2 F3 F4 M.
  destruct (write_dl_spec d ks f LF) as (f' & b & E & D & K & P & A).
  exists f', b. split; [exact E|]. split.
  { apply agree_firstn. exact A. }
  intros L LX.
  assert (SM : Forall small xs).
  { apply Forall_forall. intros y IN. destruct (pieces_sub xs y IN) as (u & v & E').
    unfold small. rewrite E', !app_length in LX. lia. }
  assert (LK : length ks = length xs) by (clear - M; induction M; cbn [length]; auto).
  destruct (read_dl_at deflate inflate Z f' b d ks xs _ D ltac:(constructor; auto) L ltac:(lia) ltac:(rewrite K; reflexivity) M SM)
    as (i & R & G1 & G2 & G3 & G4 & G5 & G6).
  exists i. split; [exact R|]. split; [auto|]. rewrite <- LK. split; [auto|]. rewrite G5. split; [auto|].
  split; [apply G3|]. split; [apply G4|]. split.
  - clear - G6. induction G6 as [|e x ds xs (S & _) _ IH]; cbn [map]; [reflexivity|]. rewrite S, IH. reflexivity.
  - apply good_all_bytes. exact G6.
Qed.

(** A history of save steps from a data group without data. *)
Lemma history_stored : forall ops lo dg f fuel, owner_ok f dg 2 lo -> link dg 2 = 0 ->
  Forall (poke_ok lo dg) ops -> Forall (Forall (fits deflate)) (steps ops) ->
  N.of_nat (length (concat (concat (steps ops)))) < 2 ^ 63 ->
  Forall (fun xs => N.of_nat (length xs) < 2 ^ 32) (steps ops) ->
  plain_text (b_type dg) -> (length (b_type dg) <= 4)%nat -> b_len dg < 2 ^ 64 ->
  Forall (fun l => l < 2 ^ 64) (b_links dg) -> (length (steps ops) + 2 < fuel)%nat ->
  exists s, drun deflate ops (mkSt f dg None None, 0) = Ok (s, N.of_nat (length (concat (concat (steps ops))))) /\
   (N.of_nat (length (st_file s)) < 2 ^ 63 ->
    exists l p ds, read_header4 (st_file s) (b_pos dg) =
      Ok (mkB (b_pos dg) (b_type dg) (b_len dg) (set_nth (b_links dg) 2 l), p) /\
    read_blocks fuel (st_file s) l = Some (Ok ds) /\
    all_bytes inflate (st_file s) ds = Ok (concat (steps ops)) /\
    map data_size ds = map (fun x => N.of_nat (length x)) (concat (steps ops)) /\
    (steps ops <> [] -> exists l' is, read_hl (st_file s) (N.to_nat l) = Ok l' /\
       read_dls fuel (st_file s) l' = Some (Ok is) /\ concat (map di_blocks is) = ds /\
       concat (map di_offs is) = starts 0 (concat (steps ops)))).
Proof.
  intros ops lo dg f fuel OW LK PO FI B C PT TL BL FL FU.
  assert (I0 : sinv lo dg (mkSt f dg None None) []).
  { split; [exact OW|]. cbn [st_dg st_hl st_last]. split; [auto|]. split; [auto|]. split; [auto|]. split.
    - rewrite LK. symmetry. apply set_nth_zero. exact LK.
    - auto. }
  destruct (drun_inv deflate ops lo dg (mkSt f dg None None) 0 [] [] I0 PO FI ltac:(cbn [app]; lia) eq_refl I) as (s & gs & E & I1 & R).
  cbn [app] in *. exists s. split; [exact E|]. intros L.
  destruct (sinv_read deflate inflate Z lo dg s gs (steps ops) fuel I1 L R B C PT TL BL FL FU)
    as (l & p & is & ds & R1 & R2 & R3 & R4 & R5).
  exists l, p, ds. split; [exact R1|]. split; [exact R2|]. split; [exact R3|]. split; [exact R4|].
  intros NE. destruct (R5 NE) as (l' & X1 & X2 & X3 & X4 & _). exists l', is. auto.
Qed.
End Extra.
