(** Theorems about the storage of data bytes: C18 (transposition), C19 (compressed blocks), C34 (list
    blocks), C54 (a data group written compressed) and C55 (signal data). The proofs are in
    TransProofs, DataProofs, ListProofs, StoreProofs, StoreProofs2, SignalProofs and DataExtra.
    zlib appears as two functions of which only [zlib_ok] is assumed. *)
From Verif Require Import Base ChannelModel ChannelSpec VlsdProofs StreamModel StreamSpec
  QueueModel QueueSpec QueueProofs QueueProofs2 QueueProps
  BlockModel BlockSpec BlockProofs BlockProofs2 BlockProofs3
  DataModel DataSpec TransProofs DataProofs ListProofs StoreProofs StoreProofs2 SignalProofs DataExtra.
From Coq Require Import Lia.
Local Open Scope N_scope.

(* ================================================================== *)
(** * C18: transposition *)

(** Undone by the inverse, for every record size and every length, also when the last record is
    not complete; and the other way round. *)
Theorem C18_inverse : forall n data, inv_transpose n (transpose n data) = data.
Proof. exact inv_transpose_transpose. Qed.
Print Assumptions C18_inverse.

Theorem C18_inverse_first : forall n data, transpose n (inv_transpose n data) = data.
Proof. exact transpose_inv_transpose. Qed.
Print Assumptions C18_inverse_first.

(** It is the transposition: byte [c] of record [r] comes to place [r] of column [c]. *)
Theorem C18_columns : forall n data r c, (r < length data / n)%nat -> (c < n)%nat ->
  nth (c * (length data / n) + r) (transpose n data) 0 = nth (r * n + c) data 0.
Proof. exact transposed_cell. Qed.
Print Assumptions C18_columns.

(** The bytes after the last complete record stay, and so does the number of bytes. *)
Theorem C18_tail : forall n data, (n <> 0)%nat ->
  length (transpose n data) = length data /\
  skipn (length data / n * n) (transpose n data) = skipn (length data / n * n) data.
Proof. intros. split; [apply transpose_length|apply transpose_tail; auto]. Qed.
Print Assumptions C18_tail.

Example C18_witness : transpose 3 [1; 2; 3; 4; 5; 6; 7; 8] = [1; 4; 2; 5; 3; 6; 7; 8] /\
  inv_transpose 3 [1; 4; 2; 5; 3; 6; 7; 8] = [1; 2; 3; 4; 5; 6; 7; 8] /\ transpose 0 [1; 2] = [1; 2] /\
  transpose 5 [1; 2] = [1; 2].
Proof. vm_compute. auto. Qed.

(* ================================================================== *)
(** * C19: compressed data blocks *)

(** A block written at the end of any file, with any type of data bytes, plain or packed with or
    without transposition: the file before is kept, the block is found again as one data block of
    the right size, and its bytes are the original ones, read alone or copied to a place of a larger
    buffer. *)
Theorem C19_round_trip : forall deflate inflate k x f, zlib_ok deflate inflate ->
  (0 < length f)%nat -> made_from deflate k x ->
  exists f' b, write_dblk k f = Ok (f', b) /\ firstn (length f) f' = f /\
    (N.of_nat (length f') < 2 ^ 63 -> N.of_nat (length x) < 2 ^ 63 ->
     exists d, read_blocks 1 f' (N.of_nat (b_pos b)) = Some (Ok [d]) /\
       data_size d = N.of_nat (length x) /\ block_bytes inflate f' d = Ok x /\
       forall pre post, N.of_nat (length (pre ++ x ++ post)) < 2 ^ 64 ->
       forall old, length old = length x ->
       copy_block inflate f' d (pre ++ old ++ post, N.of_nat (length pre)) =
       Ok (pre ++ x ++ post, N.of_nat (length (pre ++ x)))).
Proof. intros deflate inflate k x f Z. apply block_stored. exact Z. Qed.
Print Assumptions C19_round_trip.

(** The sizes in the block's header are the true ones: original bytes, compressed bytes, and the
    length of the whole block. *)
Theorem C19_sizes : forall deflate orig t p x f,
  (0 < length f)%nat -> x <> [] -> type_ok 2 orig -> p < 2 ^ 32 ->
  fits deflate (if t =? 1 then transpose (N.to_nat p) x else x) ->
  exists f' b, write_dz (dz_pack deflate orig t p x) f = Ok (f', b) /\
    (N.of_nat (length f') < 2 ^ 63 -> N.of_nat (length x) < 2 ^ 63 ->
     exists q ty param, let stored := deflate (if t =? 1 then transpose (N.to_nat p) x else x) in
       read_dz f' (b_pos b) = Ok (Zip q ty param (N.of_nat (length x)) (N.of_nat (length stored))) /\
       slice q (length stored) f' = stored /\ b_len b = 48 + N.of_nat (length stored) /\
       length f' = (b_pos b + N.to_nat (b_len b))%nat).
Proof. exact packed_fields. Qed.
Print Assumptions C19_sizes.

(** A stand-in for zlib for the examples: a one byte header. *)
Definition toy_deflate (x : list N) : list N := 120 :: x.
Definition toy_inflate (s : list N) (n : nat) : list N := firstn n (tl s).

Lemma toy_ok : zlib_ok toy_deflate toy_inflate.
Proof. intros x _. split; [apply firstn_all|discriminate]. Qed.

Lemma toy_fits : forall x, fits toy_deflate x.
Proof. intros. unfold fits, toy_deflate. cbn [length]. lia. Qed.

Example C19_witness :
  made_from toy_deflate (BZip (dz_pack toy_deflate [68; 84] 1 3 [1; 2; 3; 4; 5; 6; 7])) [1; 2; 3; 4; 5; 6; 7] /\
  dz_data (dz_pack toy_deflate [68; 84] 1 3 [1; 2; 3; 4; 5; 6; 7]) = [120; 1; 4; 2; 5; 3; 6; 7] /\
  exists f' b d, write_dblk (BZip (dz_pack toy_deflate [68; 84] 1 3 [1; 2; 3; 4; 5; 6; 7])) (repeat 0 70) = Ok (f', b) /\
    b_pos b = 72%nat /\ read_blocks 1 f' 72 = Some (Ok [d]) /\ block_bytes toy_inflate f' d = Ok [1; 2; 3; 4; 5; 6; 7].
Proof.
  split; [|split].
  - apply made_zip; [|reflexivity|apply toy_fits].
    split; [reflexivity|]. split; [|split; reflexivity]. intros [X|[X|[]]]; discriminate.
  - vm_compute. reflexivity.
  - eexists _, _, _. split; [vm_compute; reflexivity|]. split; [reflexivity|]. split; [vm_compute; reflexivity|].
    vm_compute. reflexivity.
Qed.

(** Without [fits] the property is false: the buffer for the compressed stream has 100 bytes more
    than the data, Deflate's result is ignored, and a stream that is longer is cut. Reading the
    block then copies bytes beyond the end of the inflated buffer. *)
Theorem C19_long_stream_refuted : exists deflate inflate, zlib_ok deflate inflate /\
  exists x f f' b d, (0 < length f)%nat /\ x <> [] /\
    write_dz (dz_pack deflate [68; 84] 0 0 x) f = Ok (f', b) /\
    read_blocks 1 f' (N.of_nat (b_pos b)) = Some (Ok [d]) /\ block_bytes inflate f' d = UB.
Proof.
  exists (fun x => repeat 9 200 ++ x), (fun s n => firstn n (skipn 200 s)). split.
  - intros x NE. split; [|destruct x; discriminate].
    change 200%nat with (length (repeat 9 200)) at 1. rewrite skipn_app_exact by reflexivity. apply firstn_all.
  - exists [5], (repeat 0 64). eexists _, _, _. split; [cbn; lia|]. split; [discriminate|].
    split; [vm_compute; reflexivity|]. split; [vm_compute; reflexivity|]. vm_compute. reflexivity.
Qed.
Print Assumptions C19_long_stream_refuted.

(** A file whose DZ block states a larger original size than its stream has makes the reader copy
    beyond the end of its buffer. *)
Theorem C19_wrong_size_refuted : exists deflate inflate, zlib_ok deflate inflate /\
  exists f d, read_blocks 1 f 64 = Some (Ok [d]) /\ data_size d = 5 /\ block_bytes inflate f d = UB.
Proof.
  exists toy_deflate, toy_inflate. split; [exact toy_ok|].
  exists (repeat 0 64 ++ header_bytes ty_dz 52 [] ++ dz_body (mkDz [68; 84] 0 0 5 4 [120; 1; 2; 3])).
  eexists. split; [vm_compute; reflexivity|]. split; vm_compute; reflexivity.
Qed.
Print Assumptions C19_wrong_size_refuted.

(* ================================================================== *)
(** * C34: list blocks locate the data blocks *)

(** A list block written with its data blocks and read back. *)
Theorem C34_list_round_trip : forall deflate inflate d ks xs f, zlib_ok deflate inflate ->
  (0 < length f)%nat -> dl_flags d < 256 -> dl_equal d < 2 ^ 64 ->
  Forall (fun o => o < 2 ^ 64) (dl_offs d) -> N.of_nat (length ks) < 2 ^ 32 ->
  Forall2 (made_from deflate) ks xs ->
  exists f' b, write_dl d ks f = Ok (f', b) /\ firstn (length f) f' = f /\
    (N.of_nat (length f') < 2 ^ 63 -> N.of_nat (length (concat xs)) < 2 ^ 63 ->
     exists i, read_dl f' (b_pos b) = Ok i /\ di_flags i = dl_flags d /\ di_nof i = N.of_nat (length xs) /\
       di_next i = 0 /\
       (N.testbit (dl_flags d) 0 = true -> di_equal i = dl_equal d) /\
       (N.testbit (dl_flags d) 0 = false -> di_offs i = map (fun j => nth j (dl_offs d) 0) (seq 0 (length xs))) /\
       map data_size (di_blocks i) = map (fun x => N.of_nat (length x)) xs /\
       all_bytes inflate f' (di_blocks i) = Ok xs).
Proof. intros deflate inflate d ks xs f Z. apply list_stored. exact Z. Qed.
Print Assumptions C34_list_round_trip.

(** A list with offsets, as the compressed writer makes it: the last offset not above position [x]
    names the block with that byte. *)
Theorem C34_by_offset : forall deflate inflate ks xs f x, zlib_ok deflate inflate ->
  (0 < length f)%nat -> N.of_nat (length ks) < 2 ^ 32 -> Forall2 (made_from deflate) ks xs ->
  x < N.of_nat (length (concat xs)) < 2 ^ 63 ->
  exists f' b, write_dl (chunks_dl 0 xs) ks f = Ok (f', b) /\
    (N.of_nat (length f') < 2 ^ 63 ->
     exists i k off d bytes, read_dl f' (b_pos b) = Ok i /\ entry (di_offs i) x = Some k /\
       nth_error (di_offs i) k = Some off /\ off <= x /\ nth_error (di_blocks i) k = Some d /\
       block_bytes inflate f' d = Ok bytes /\ x - off < data_size d /\
       nth_error bytes (N.to_nat (x - off)) = nth_error (concat xs) (N.to_nat x)).
Proof.
  intros deflate inflate ks xs f x Z LF LK M [XL XB].
  destruct (chunks_dl_spec 0 xs ltac:(lia)) as (C1 & C2 & _ & C4).
  assert (NE : xs <> []) by (intros ->; cbn in XL; lia).
  specialize (C4 NE).
  destruct (C34_list_round_trip deflate inflate (chunks_dl 0 xs) ks xs f Z LF) as (f' & b & E & _ & R); auto.
  - rewrite C1. reflexivity.
  - rewrite C2. reflexivity.
  - rewrite C4. apply starts_bound. lia.
  - exists f', b. split; [exact E|]. intros L. destruct (R L XB) as (i & R1 & _ & _ & _ & _ & R6 & R7 & R8).
    rewrite C1 in R6. specialize (R6 eq_refl). rewrite C4 in R6.
    replace (length xs) with (length (starts 0 xs)) in R6 by apply starts_length.
    rewrite (map_nth_seq (starts 0 xs) 0 : map (fun j => nth j (starts 0 xs) 0) _ = _) in R6.
    destruct (entry_locate xs 0 x ltac:(lia)) as (k & s & E1 & E2 & E3 & E4 & E5).
    assert (KL : (k < length xs)%nat).
    { rewrite <- (starts_length xs 0). apply nth_error_Some. rewrite E2. discriminate. }
    destruct (all_bytes_nth inflate f' _ _ k R8 KL) as (d & D1 & D2 & D3).
    { rewrite <- (map_length data_size), R7, map_length. reflexivity. }
    { exact R7. }
    exists i, k, s, d, (nth k xs []). rewrite R6. split; [exact R1|]. split; [exact E1|]. split; [exact E2|].
    split; [exact E3|]. split; [exact D1|]. split; [exact D2|]. split; [rewrite D3; lia|].
    rewrite <- E5. f_equal. lia.
Qed.
Print Assumptions C34_by_offset.

(** A list with an equal length [m], all blocks of that size but the last, which may be shorter:
    position [x] is byte [x mod m] of block [x / m]. *)
Theorem C34_by_equal_length : forall deflate inflate fl ks xs f x m, zlib_ok deflate inflate ->
  fl = 0 \/ fl = 1 ->
  (0 < length f)%nat -> N.of_nat (length ks) < 2 ^ 32 -> Forall2 (made_from deflate) ks xs ->
  0 < m < 2 ^ 64 -> even_cut m xs -> x < N.of_nat (length (concat xs)) < 2 ^ 63 ->
  exists f' b, write_dl (dl_set_equal m (mkDl fl 0 [] [] [] [])) ks f = Ok (f', b) /\
    (N.of_nat (length f') < 2 ^ 63 ->
     exists i d bytes, read_dl f' (b_pos b) = Ok i /\ N.testbit (di_flags i) 0 = true /\ di_equal i = m /\
       nth_error (di_blocks i) (N.to_nat (x / di_equal i)) = Some d /\
       block_bytes inflate f' d = Ok bytes /\ x mod di_equal i < data_size d /\
       nth_error bytes (N.to_nat (x mod di_equal i)) = nth_error (concat xs) (N.to_nat x)).
Proof.
  intros deflate inflate fl ks xs f x m Z FL0 LF LK M [M0 M1] EV [XL XB].
  assert (FL : dl_flags (dl_set_equal m (mkDl fl 0 [] [] [] [])) = 1)
    by (unfold dl_set_equal; cbn [dl_flags]; apply N.ltb_lt in M0; rewrite M0; destruct FL0; subst; reflexivity).
  destruct (C34_list_round_trip deflate inflate (dl_set_equal m (mkDl fl 0 [] [] [] [])) ks xs f Z LF)
    as (f' & b & E & _ & R); auto.
  - rewrite FL. reflexivity.
  - constructor.
  - exists f', b. split; [exact E|]. intros L. destruct (R L XB) as (i & R1 & R2 & _ & _ & R5 & _ & R7 & R8).
    rewrite FL in *. specialize (R5 eq_refl). change (dl_equal (dl_set_equal m (mkDl fl 0 [] [] [] []))) with m in R5.
    pose proof (even_cut_locate m xs (N.to_nat x) M0 EV) as LO.
    rewrite <- N2Nat.inj_div, <- N2Nat.inj_mod in LO.
    assert (XN : nth_error (concat xs) (N.to_nat x) <> None) by (apply nth_error_Some; lia).
    rewrite LO in XN. apply nth_error_Some in XN.
    assert (KL : (N.to_nat (x / m) < length xs)%nat).
    { destruct (Nat.lt_ge_cases (N.to_nat (x / m)) (length xs)) as [K|K]; [auto|].
      rewrite nth_overflow in XN by auto. cbn in XN. lia. }
    destruct (all_bytes_nth inflate f' _ _ (N.to_nat (x / m)) R8 KL) as (d & D1 & D2 & D3).
    { rewrite <- (map_length data_size), R7, map_length. reflexivity. }
    { exact R7. }
    exists i, d, (nth (N.to_nat (x / m)) xs []). rewrite R5. split; [exact R1|]. split; [rewrite R2; reflexivity|].
    split; [reflexivity|]. split; [exact D1|]. split; [exact D2|]. split; [rewrite D3; lia|]. symmetry. exact LO.
Qed.
Print Assumptions C34_by_equal_length.

Example C34_witness :
  let xs := [[1; 2; 3]; [4; 5]; [6]] in
  let ks := [BRaw ty_dt [1; 2; 3]; BZip (dz_pack toy_deflate [68; 84] 0 0 [4; 5]); BRaw ty_dt [6]] in
  Forall2 (made_from toy_deflate) ks xs /\
  exists f' b i, write_dl (chunks_dl 0 xs) ks (repeat 0 64) = Ok (f', b) /\ read_dl f' (b_pos b) = Ok i /\
    di_offs i = [0; 3; 5] /\ entry (di_offs i) 4 = Some 1%nat /\ all_bytes toy_inflate f' (di_blocks i) = Ok xs /\
  even_cut 3 [[1; 2; 3]; [4; 5; 6]; [7]].
Proof.
  split.
  - constructor; [apply made_raw; left; reflexivity|]. constructor; [|constructor; [apply made_raw; left; reflexivity|constructor]].
    apply made_zip; [|reflexivity|apply toy_fits].
    split; [reflexivity|]. split; [|split; reflexivity]. intros [X|[X|[]]]; discriminate.
  - eexists _, _, _. split; [vm_compute; reflexivity|]. split; [vm_compute; reflexivity|].
    split; [vm_compute; reflexivity|]. split; [vm_compute; reflexivity|]. split; [vm_compute; reflexivity|].
    cbn. split; [reflexivity|]. split; [reflexivity|]. split; [discriminate|lia].
Qed.

(* ================================================================== *)
(** * C54: a data group written compressed *)

(** Any history of save steps of a data group that had no data, with other writes to the file in
    between (blocks appended, fields before [lo] rewritten, but not those of the DG block). Reading
    from the DG block's data link finds exactly the stored pieces in order, with their sizes, and
    the offsets of the list blocks, taken together, are the running sums. *)
Theorem C54_history : forall deflate inflate ops lo dg f fuel, zlib_ok deflate inflate ->
  owner_ok f dg 2 lo -> link dg 2 = 0 ->
  Forall (poke_ok lo dg) ops -> Forall (Forall (fits deflate)) (steps ops) ->
  N.of_nat (length (concat (concat (steps ops)))) < 2 ^ 63 ->
  Forall (fun xs => N.of_nat (length xs) < 2 ^ 32) (steps ops) ->
  plain_text (b_type dg) -> (length (b_type dg) <= 4)%nat -> b_len dg < 2 ^ 64 ->
  Forall (fun l => l < 2 ^ 64) (b_links dg) -> (length (steps ops) + 2 < fuel)%nat ->
  exists s, drun deflate ops (mkSt f dg None None, 0) = Ok (s, N.of_nat (length (concat (concat (steps ops))))) /\
   (N.of_nat (length (st_file s)) < 2 ^ 63 ->
    exists l p ds, read_header4 (st_file s) (b_pos dg) =
      Ok (mkB (b_pos dg) (b_type dg) (b_len dg) (set_nth (b_links dg) 2 l), p) /\
    read_blocks fuel (st_file s) l = Some (Ok ds) /\
    all_bytes inflate (st_file s) ds = Ok (concat (steps ops)) /\
    map data_size ds = map (fun x => N.of_nat (length x)) (concat (steps ops)) /\
    (steps ops <> [] -> exists l' is, read_hl (st_file s) (N.to_nat l) = Ok l' /\
       read_dls fuel (st_file s) l' = Some (Ok is) /\ concat (map di_blocks is) = ds /\
       concat (map di_offs is) = starts 0 (concat (steps ops)))).
Proof. intros deflate inflate ops lo dg f fuel Z. apply history_stored. exact Z. Qed.
Print Assumptions C54_history.

(** No step changes a byte before [lo], except those of the DG block's data link. *)
Theorem C54_rest_kept : forall deflate full rest off s s' off' lo, owner_ok (st_file s) (st_dg s) 2 lo ->
  st_hl s = None -> st_last s = None -> link (st_dg s) 2 = 0 ->
  dstep deflate (DStore full rest) (s, off) = Ok (s', off') ->
  quiet lo (b_pos (st_dg s)) 2 (st_file s) (st_file s').
Proof.
  intros deflate full rest off [f dg hl last] s' off' lo OW E1 E2 LK H. cbn [st_file st_dg st_hl st_last] in *. subst hl last.
  assert (I0 : sinv lo dg (mkSt f dg None None) []).
  { split; [exact OW|]. cbn [st_dg st_hl st_last]. split; [auto|]. split; [auto|]. split; [auto|]. split; [|auto].
    rewrite LK. symmetry. apply set_nth_zero. exact LK. }
  destruct (store_dl_inv lo dg _ [] (chunks_dl off (step_chunks full rest)) (step_blocks deflate full rest) I0)
    as (s1 & gs1 & E & _ & _ & Q).
  cbn [dstep] in H. rewrite E in H. cbn [bind] in H. injection H as <- _. exact Q.
Qed.
Print Assumptions C54_rest_kept.

(** Together with C20: the samples written by the uncompressed writer's drain, and the blocks of
    the compressed writer's drain stored in a file in any number of steps and read back, are the
    same bytes. *)
Theorem C54_same_stream : forall deflate inflate d has_sd st1 st2 c sch zsch n1 n2 ops lo dg f fuel,
  zlib_ok deflate inflate -> dg_ok d ->
  Forall (sample_ok d) (saved sch) -> zsaved zsch = saved sch ->
  c_stop c = 0 -> keeps_all c (saved sch) ->
  (S (length (q_list (u_q (run d has_sd st1 c sch ust0)))) <= n1)%nat ->
  (length (q_list (z_q (zrun d has_sd st2 c zsch zst0))) + 4 <= n2)%nat ->
  let u := run d has_sd st1 c (sch ++ works n1) ust0 in
  let z := zrun d has_sd st2 c (zsch ++ zworks n2) zst0 in
  concat (steps ops) = map snd (z_blocks z) ->
  owner_ok f dg 2 lo -> link dg 2 = 0 ->
  Forall (poke_ok lo dg) ops -> Forall (Forall (fits deflate)) (steps ops) ->
  N.of_nat (length (u_out u)) < 2 ^ 63 ->
  Forall (fun xs => N.of_nat (length xs) < 2 ^ 32) (steps ops) ->
  plain_text (b_type dg) -> (length (b_type dg) <= 4)%nat -> b_len dg < 2 ^ 64 ->
  Forall (fun l => l < 2 ^ 64) (b_links dg) -> (length (steps ops) + 2 < fuel)%nat ->
  exists s n, drun deflate ops (mkSt f dg None None, 0) = Ok (s, n) /\
   (N.of_nat (length (st_file s)) < 2 ^ 63 ->
    exists l p ds bs, read_header4 (st_file s) (b_pos dg) =
      Ok (mkB (b_pos dg) (b_type dg) (b_len dg) (set_nth (b_links dg) 2 l), p) /\
    read_blocks fuel (st_file s) l = Some (Ok ds) /\
    all_bytes inflate (st_file s) ds = Ok bs /\ concat bs = u_out u).
Proof.
  intros deflate inflate d has_sd st1 st2 c sch zsch n1 n2 ops lo dg f fuel Z DG SO ZS ST KA L1 L2 u z CS
    OW LK PO FI B C PT TL BL FL FU.
  destruct (C20_same_stream d has_sd st1 st2 c sch zsch n1 n2 DG SO ZS ST KA L1 L2) as [SS _].
  fold u z in SS. rewrite <- CS in SS.
  destruct (C54_history deflate inflate ops lo dg f fuel Z OW LK PO FI ltac:(rewrite SS; exact B) C PT TL BL FL FU)
    as (s & E & R).
  exists s. eexists. split; [exact E|]. intros L. destruct (R L) as (l & p & ds & R1 & R2 & R3 & _).
  exists l, p, ds, (concat (steps ops)). rewrite SS. auto.
Qed.
Print Assumptions C54_same_stream.

Definition dg_block : blk := mkB 64 [35; 35; 68; 71] 64 [0; 0; 0; 0].

Example C54_witness :
  let ops := [DStore [[1; 2]; [3]] [4; 5]; DGrow [9; 9; 9]; DStore [] []; DPoke 10 [7]; DStore [] [6]] in
  let f := repeat 0 64 ++ header_bytes [35; 35; 68; 71] 64 [0; 0; 0; 0] ++ repeat 0 8 in
  owner_ok f dg_block 2 128 /\ Forall (poke_ok 128 dg_block) ops /\
  concat (steps ops) = [[1; 2]; [3]; [4; 5]; [6]] /\
  exists s ds l p, drun toy_deflate ops (mkSt f dg_block None None, 0) = Ok (s, 6) /\
    read_header4 (st_file s) 64 = Ok (mkB 64 [35; 35; 68; 71] 64 [0; 0; l; 0], p) /\
    read_blocks 6 (st_file s) l = Some (Ok ds) /\ all_bytes toy_inflate (st_file s) ds = Ok [[1; 2]; [3]; [4; 5]; [6]].
Proof.
  cbv zeta. split; [|split; [|split]].
  - split; [cbn; lia|]. split; [cbn; lia|]. split; [cbn; lia|]. split; [vm_compute; lia|].
    exact (holds_end (repeat 0 64) (header_bytes [35; 35; 68; 71] 64 [0; 0; 0; 0]) (repeat 0 8)).
  - repeat constructor; cbn; try lia.
  - reflexivity.
  - eexists _, _, _, _. split; [vm_compute; reflexivity|]. split; [vm_compute; reflexivity|].
    split; [vm_compute; reflexivity|]. vm_compute. reflexivity.
Qed.

(* ================================================================== *)
(** * C55: signal data *)

(** The signal data of a channel, of any size, written compressed or not, are read back from the
    channel's data link; the rest of the file before [lo] is kept. [m] is the largest size of one
    block. *)
Theorem C55_round_trip : forall deflate inflate m compress li x cn lo f, zlib_ok deflate inflate ->
  0 < m < 2 ^ 64 -> owner_ok f cn li lo ->
  (forall a y b, x = a ++ y ++ b -> fits deflate y) -> N.of_nat (length x) < 2 ^ 63 ->
  N.of_nat (length x) / m < 2 ^ 32 - 2 ->
  exists f' l, write_signal deflate m compress li x cn f =
      Ok (f', mkB (b_pos cn) (b_type cn) (b_len cn) (set_nth (b_links cn) li l)) /\
    quiet lo (b_pos cn) li f f' /\
    holds f' (b_pos cn) (header_bytes (b_type cn) (b_len cn) (set_nth (b_links cn) li l)) /\
    (forall fuel, N.of_nat (length f') < 2 ^ 63 -> (4 <= fuel)%nat ->
       read_signal inflate fuel f' l = Some (Ok x)).
Proof.
  intros deflate inflate m compress li x cn lo f Z [M0 M1] OW F L1 L2.
  destruct (signal_round_trip deflate inflate Z m compress li x cn lo f M0 OW F L1 L2 M1)
    as (f' & l & E & Q & (_ & _ & _ & _ & H) & R).
  exists f', l. split; [exact E|]. split; [exact Q|]. split; [exact H|exact R].
Qed.
Print Assumptions C55_round_trip.

(** Together with C17: every variable length value appended while writing is found again by its
    index in the signal data read from the file. *)
Theorem C55_values : forall deflate inflate compress li vs cn lo f, zlib_ok deflate inflate ->
  owner_ok f cn li lo -> (forall y, fits deflate y) ->
  Forall (fun v => N.of_nat (length v) < 2 ^ 32) vs ->
  N.of_nat (length (snd (sd_appends [] vs))) < 2 ^ 53 ->
  exists f' cn', write_signal deflate max_data compress li (snd (sd_appends [] vs)) cn f = Ok (f', cn') /\
    (N.of_nat (length f') < 2 ^ 63 ->
     exists data, read_signal inflate 4 f' (link cn' li) = Some (Ok data) /\
       forall k v i, nth_error vs k = Some v -> nth_error (fst (sd_appends [] vs)) k = Some i ->
       sd_lookup data i = Ok v).
Proof.
  intros deflate inflate compress li vs cn lo f Z OW F FV L.
  destruct (C55_round_trip deflate inflate max_data compress li (snd (sd_appends [] vs)) cn lo f Z
              ltac:(split; reflexivity) OW ltac:(auto) ltac:(lia)) as (f' & l & E & _ & _ & R).
  { apply N.div_lt_upper_bound; [discriminate|]. unfold max_data. lia. }
  eexists f', _. split; [exact E|]. intros LF. exists (snd (sd_appends [] vs)).
  rewrite (owner_back f cn li lo l OW). split; [apply R; auto|].
  intros k v i H1 H2. eapply sd_lookup_appended; eauto; [|lia].
  rewrite Forall_forall in FV. apply FV. eapply nth_error_In; eauto.
Qed.
Print Assumptions C55_values.

Example C55_witness :
  let cn := mkB 64 [35; 35; 67; 78] 88 [0; 0; 0; 0; 0; 0; 0; 0] in
  let f := repeat 0 64 ++ header_bytes [35; 35; 67; 78] 88 [0; 0; 0; 0; 0; 0; 0; 0] ++ repeat 0 8 in
  let x := map N.of_nat (seq 0 110) in
  owner_ok f cn 5 160 /\
  exists f' cn', write_signal toy_deflate 50 true 5 x cn f = Ok (f', cn') /\
    read_signal toy_inflate 4 f' (link cn' 5) = Some (Ok x) /\
    map (@length N) (cut_chunks 50 x []) = [50; 50; 10]%nat.
Proof.
  cbv zeta. split.
  - split; [cbn; lia|]. split; [cbn; lia|]. split; [cbn; lia|]. split; [vm_compute; lia|].
    exact (holds_end (repeat 0 64) (header_bytes [35; 35; 67; 78] 88 [0; 0; 0; 0; 0; 0; 0; 0]) (repeat 0 8)).
  - eexists _, _. split; [vm_compute; reflexivity|]. split; vm_compute; reflexivity.
Qed.
