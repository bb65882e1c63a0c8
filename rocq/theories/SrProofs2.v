(** Proofs about SrModel.v: the SR block and its data in a file. *)
From Verif Require Import Base BlockModel BlockSpec BlockProofs BlockProofs2 BlockProofs3
  DataModel DataSpec TransProofs DataProofs ListProofs StoreProofs StoreProofs2 SignalProofs ChannelModel SrModel SrSpec SrProofs.
From Coq Require Import Lia.
Local Open Scope N_scope.

Lemma eqb_type_iff : forall t x y, eqb_type t x y = true <-> t = [x; y].
Proof.
  intros t x y. split.
  - intros H. destruct t as [|a [|b [|]]]; cbn [eqb_type] in H; try discriminate. apply andb_true_iff in H. destruct H as [A B].
    apply N.eqb_eq in A, B. congruence.
  - intros ->. cbn. rewrite !N.eqb_refl. reflexivity.
Qed.

Lemma data_type : forall t, (eqb_type t 68 90 = true \/ raw_type t = true) ->
  eqb_type t 76 68 = false /\ eqb_type t 72 76 = false /\ eqb_type t 68 76 = false.
Proof.
  intros t H. assert (E : exists x y, t = [x; y] /\ In (x, y) [(68, 90); (68, 84); (68, 86); (68, 73); (82, 68); (82, 86); (82, 73); (83, 68)]).
  { destruct H as [H|H].
    - apply eqb_type_iff in H. subst. exists 68, 90. cbn; auto.
    - unfold raw_type in H. repeat (apply orb_true_iff in H; destruct H as [H|H]); apply eqb_type_iff in H; subst;
        eexists _, _; (split; [reflexivity|]); cbn; auto 10. }
  destruct E as (x & y & -> & I). cbn [In] in I.
  repeat destruct I as [I|I]; try contradiction; injection I as <- <-; repeat split; reflexivity.
Qed.

Section File.
Context (deflate : list N -> list N) (inflate : list N -> nat -> list N) (Z : zlib_ok deflate inflate).

Definition is_row (k : dblk) : bool :=
  match k with
  | BRaw ty _ => match ty with [_; _; a; b] => eqb_type [a; b] 82 68 | _ => false end
  | BZip z => eqb_type (dz_orig_type z) 82 68
  end.

Lemma is_row_iff : forall k x, made_from deflate k x -> is_row k = true <-> row_block k.
Proof.
  intros k x M. destruct M as [ty x IN|orig t p x O P F]; cbn [is_row row_block].
  - cbn [raw_ids In] in IN. repeat destruct IN as [IN|IN]; try contradiction; subst ty; split; intros H; try discriminate H; reflexivity.
  - rewrite eqb_type_iff. reflexivity.
Qed.

Lemma kind_at : forall f p k x, made_from deflate k x -> dblk_at f p k -> N.of_nat (length f) < 2 ^ 63 ->
  N.of_nat (length x) < 2 ^ 63 -> rd_kind f p = is_row k.
Proof.
  intros f p k x M D L LX. pose proof D as [P H].
  assert (HL : (p + 24 + length (dblk_body k) <= length f)%nat).
  { destruct H as [HL _]. rewrite app_length, header_bytes_length in HL. cbn [length] in HL. lia. }
  destruct M as [ty x IN|orig t pa x O PP F]; unfold dblk_type, dblk_body in *; cbn [dblk_parts fst snd] in *.
  - destruct (raw_ids_types _ IN) as (a & b & -> & T & E1 & E2). apply holds_app in H as [H _].
    unfold rd_kind. rewrite (read_type_at _ _ _ _ _ _ T H), E1. reflexivity.
  - set (z := dz_pack deflate orig t pa x) in *. rewrite dz_body_length in HL.
    assert (ZO : dz_ok z) by (apply dz_pack_ok; auto; fold z; lia).
    apply holds_app in H as [H1 H2]. rewrite header_bytes_length in H2. cbn [length Nat.mul] in H2. rewrite Nat.add_0_r in H2.
    assert (T2 : two_ok 68 90) by (repeat split; discriminate). unfold rd_kind. rewrite (read_type_at _ _ _ _ _ _ T2 H1).
    change (eqb_type [68; 90] 68 90) with true. cbn iota.
    rewrite (read_header4_at f p ty_dz (N.of_nat (24 + length (dz_body z))) []); auto;
      try (apply four_plain; repeat split; discriminate); try reflexivity; try (cbn; lia); try (rewrite dz_body_length; lia).
    cbn [length Nat.mul]. rewrite Nat.add_0_r. unfold dz_body in H2. apply holds_app in H2 as [A _].
    destruct ZO as [(O1 & O2 & O3 & O4) _ _ _ _].
    rewrite (read_str_written 2 (dz_orig_type z)); auto; [split; auto|lia].
Qed.

(** The data in the file. *)
Fixpoint lds_at (f : file) (p : nat) (lds : list (dl * list dblk)) (hi : nat) : Prop :=
  match lds with
  | [] => p = O
  | (d, ks) :: r => exists next ps lo mid, (0 < p)%nat /\
      holds f p (header_bytes ty_ld (N.of_nat (24 + 8 * (1 + length ks) + length (ld_body d (length ks)))) (N.of_nat next :: map N.of_nat ps) ++ ld_body d (length ks)) /\
      (p + (24 + 8 * (1 + length ks) + length (ld_body d (length ks))) <= hi)%nat /\
      blocks_at f lo ps ks mid /\ (mid <= hi)%nat /\ lds_at f next r hi
  end.
Fixpoint stored (f : file) (st : storage) (p hi : nat) : Prop :=
  match st with
  | OneBlock k => dblk_at f p k /\ (dblk_end p k <= hi)%nat
  | ListBlock d ks => exists b, b_pos b = p /\ dl_at f b d ks hi /\ link b 0 = 0
  | LdChain lds => lds_at f p lds hi
  | Headed flags type st => exists p' hi', hl_at f (mkB p ty_hl 40 [N.of_nat p']) (N.of_nat p') /\ (p + 40 <= hi)%nat /\ (hi' <= hi)%nat /\ stored f st p' hi'
  end.

Lemma lds_at_frame : forall f f' lds p hi, lds_at f p lds hi -> agree f f' 0 hi -> lds_at f' p lds hi.
Proof.
  intros f f'. induction lds as [|[d ks] lds IH]; intros p hi H A; [exact H|]. destruct H as (next & ps & lo & mid & P & H & R & B & M & C).
  exists next, ps, lo, mid. split; [exact P|]. pose proof (blocks_at_range _ _ _ _ _ B) as [_ LP]. split; [|split; [exact R|split; [|split; [exact M|apply IH; auto]]]].
  - eapply agree_holds; [exact A|exact H|lia|]. rewrite app_length, header_bytes_length. cbn [length]. rewrite map_length. lia.
  - eapply blocks_at_frame; [exact B|]. eapply agree_sub; [exact A|lia|exact M].
Qed.
Lemma stored_frame : forall st f f' p hi, stored f st p hi -> agree f f' 0 hi -> stored f' st p hi.
Proof.
  induction st as [k|d ks|lds|fl ty st IH]; intros f f' p hi S A; cbn [stored] in *.
  - destruct S as [D E]. split; [|exact E]. apply (dblk_at_frame f f' p k 0 hi A); auto. lia.
  - destruct S as (b & P & D & E). exists b. split; [exact P|]. split; [|exact E]. apply (dl_at_frame f f' b d ks hi 0 D); auto. lia.
  - eapply lds_at_frame; eauto.
  - destruct S as (p' & hi' & H & R & LH & S). exists p', hi'. split; [|split; [exact R|split; [exact LH|]]].
    + eapply (hl_at_frame f f'); [exact H|apply Nat.le_0_l|]. eapply agree_sub; [exact A|lia|exact R].
    + eapply IH; [exact S|]. eapply agree_sub; [exact A|lia|exact LH].
Qed.
Lemma lds_at_up : forall f lds p hi hi', lds_at f p lds hi -> (hi <= hi')%nat -> lds_at f p lds hi'.
Proof.
  intros f. induction lds as [|[d ks] lds IH]; intros p hi hi' H L; [exact H|]. destruct H as (next & ps & lo & mid & P & H & R & B & M & C).
  exists next, ps, lo, mid. split; [exact P|]. split; [exact H|]. split; [lia|]. split; [exact B|]. split; [lia|]. eapply IH; eauto.
Qed.

Lemma put_dblks_spec : forall ks f, (0 < length f)%nat -> exists f' ps, put_dblks ks f = Ok (f', ps) /\
  blocks_at f' (length f) ps ks (length f') /\ agree f f' 0 (length f) /\ (length f <= length f')%nat.
Proof.
  induction ks as [|k ks IH]; intros f L; cbn [put_dblks].
  - exists f, []. split; [reflexivity|]. split; [reflexivity|]. split; [split; [apply Nat.le_refl|intros; reflexivity]|apply Nat.le_refl].
  - rewrite (write_dblk_spec k f L). cbn [bind b_pos]. set (p := (length f + pad8 (length f))%nat).
    set (f1 := f ++ _).
    assert (D : dblk_at f1 p k).
    { split; [unfold p; lia|]. unfold f1. rewrite app_assoc.
      pose proof (holds_end (f ++ repeat 0 (pad8 (length f)))
        (header_bytes (dblk_type k) (N.of_nat (24 + length (dblk_body k))) [] ++ dblk_body k) []) as X.
      rewrite app_nil_r in X. rewrite app_length, repeat_length in X. exact X. }
    assert (L1 : length f1 = dblk_end p k).
    { unfold f1, dblk_end, p. rewrite !app_length, repeat_length, header_bytes_length. cbn [length]. lia. }
    assert (LE : (length f <= length f1)%nat) by (rewrite L1; unfold dblk_end, p; lia).
    destruct (IH f1 ltac:(lia)) as (f' & ps & E & B & A & L2). rewrite E. cbn [bind]. exists f', (p :: ps). split; [reflexivity|].
    split; [|split; [|lia]].
    + cbn [blocks_at]. split; [unfold p; lia|]. rewrite <- L1. split; [|exact B].
      apply (dblk_at_frame f1 f' p k 0 (length f1) A); auto; lia.
    + eapply agree_trans; [apply (agree_app f); lia|]. eapply agree_sub; [exact A|lia|exact LE].
Qed.
Lemma write_lds_spec : forall lds f, (0 < length f)%nat -> exists f' b, write_lds lds f = Ok (f', b) /\
  lds_at f' (b_pos b) lds (length f') /\ (length f <= length f')%nat.
Proof.
  induction lds as [|[d ks] lds IH]; intros f L; cbn [write_lds].
  - eexists _, _. split; [reflexivity|]. split; [reflexivity|auto].
  - destruct (IH f L) as (f1 & nx & E1 & C1 & L1). rewrite E1. cbn [bind].
    destruct (put_dblks_spec ks f1 ltac:(lia)) as (f2 & ps & E2 & B2 & A2 & L2). rewrite E2. cbn [bind].
    rewrite write_block4_spec by lia. pose proof (blocks_at_range _ _ _ _ _ B2) as [_ LP].
    replace (24 + 8 * length (N.of_nat (b_pos nx) :: map N.of_nat ps) + length (ld_body d (length ks)))%nat
      with (24 + 8 * (1 + length ks) + length (ld_body d (length ks)))%nat by (cbn [length]; rewrite map_length; lia).
    set (f3 := f2 ++ _). set (p := (length f2 + pad8 (length f2))%nat). eexists _, _. split; [reflexivity|]. cbn [b_pos].
    assert (L3 : length f3 = (p + (24 + 8 * (1 + length ks) + length (ld_body d (length ks))))%nat).
    { unfold f3. rewrite !app_length, repeat_length, header_bytes_length. cbn [length]. rewrite map_length. unfold p. lia. }
    assert (A3 : agree f2 f3 0 (length f2)) by (apply agree_app; lia).
    split; [|unfold p in L3; lia]. cbn [lds_at]. exists (b_pos nx), ps, (length f1), (length f2). split; [unfold p; lia|].
    split; [|split; [lia|split; [|split; [unfold p in L3; lia|]]]].
    + unfold f3. rewrite app_assoc. match goal with |- holds ((?a ++ ?b) ++ ?c) _ ?c => pose proof (holds_end (a ++ b) c []) as X end.
      rewrite app_nil_r in X. rewrite app_length, repeat_length in X. exact X.
    + eapply blocks_at_frame; [exact B2|]. eapply agree_sub; [exact A3|lia|lia].
    + apply (lds_at_up f3 lds (b_pos nx) (length f1)); [|rewrite L3; unfold p; lia].
      eapply lds_at_frame; [exact C1|]. eapply agree_trans; [exact A2|]. eapply agree_sub; [exact A3|lia|lia].
Qed.
Lemma storage_spec : forall st f, (0 < length f)%nat -> storage_ok st ->
  exists f' b, write_storage st f = Ok (f', b) /\ (exists hi, (hi <= length f')%nat /\ stored f' st (b_pos b) hi) /\ (length f <= length f')%nat.
Proof.
  induction st as [k|d ks|lds|fl ty st IH]; intros f L OK; cbn [write_storage stored storage_ok] in *.
  - rewrite (write_dblk_spec k f L). eexists _, _. split; [reflexivity|]. cbn [b_pos].
    set (p := (length f + pad8 (length f))%nat).
    assert (D : dblk_at (f ++ repeat 0 (pad8 (length f)) ++ header_bytes (dblk_type k) (N.of_nat (24 + length (dblk_body k))) [] ++ dblk_body k) p k).
    { split; [unfold p; lia|]. rewrite app_assoc.
      pose proof (holds_end (f ++ repeat 0 (pad8 (length f)))
        (header_bytes (dblk_type k) (N.of_nat (24 + length (dblk_body k))) [] ++ dblk_body k) []) as X.
      rewrite app_nil_r in X. rewrite app_length, repeat_length in X. exact X. }
    split; [eexists; split; [|split; [exact D|apply dblk_at_range; exact D]]; auto|]. rewrite app_length. lia.
  - destruct (write_dl_spec d ks f L) as (f' & b & E & D & K & P & A). exists f', b. split; [exact E|]. split; [|destruct A as [A _]; exact A].
    exists (length f'). split; [auto|]. exists b. auto.
  - destruct (write_lds_spec lds f L) as (f' & b & E & C & L'). exists f', b. split; [exact E|]. split; [|exact L']. exists (length f'). auto.
  - destruct OK as (F1 & F2 & OK). destruct (IH f L OK) as (f1 & b & E & (hi & HI & S) & L1). rewrite E. cbn [bind].
    rewrite write_block4_spec by lia. fold (hl_body fl ty).
    assert (HB : length (hl_body fl ty) = 8%nat) by (unfold hl_body; rewrite !app_length, !le_bytes_length, repeat_length; reflexivity).
    rewrite HB. change (N.of_nat (24 + 8 * length [N.of_nat (b_pos b)] + 8)) with 40. set (p := (length f1 + pad8 (length f1))%nat). set (f2 := f1 ++ _).
    assert (L2 : length f2 = (p + 40)%nat).
    { unfold f2. rewrite !app_length, repeat_length, header_bytes_length, HB. cbn [length]. unfold p. lia. }
    eexists _, _. split; [reflexivity|]. cbn [b_pos]. split; [|unfold p in L2; lia]. exists (length f2). split; [auto|]. exists (b_pos b), hi.
    split; [|split; [lia|split; [unfold p in L2; lia|]]].
    + exists fl, ty. split; [exact F1|]. split; [exact F2|]. split; [cbn [b_pos]; unfold p; lia|]. split; [reflexivity|]. cbn [b_pos].
      unfold f2. rewrite app_assoc. match goal with |- holds ((?a ++ ?b) ++ ?c) _ ?c => pose proof (holds_end (a ++ b) c []) as X end.
      rewrite app_nil_r in X. rewrite app_length, repeat_length in X. exact X.
    + eapply stored_frame; [exact S|]. unfold f2. apply agree_app. exact HI.
Qed.

Lemma smalls : forall xs, N.of_nat (length (concat xs)) < 2 ^ 63 -> Forall StoreProofs.small xs.
Proof.
  intros xs LX. apply Forall_forall. intros y IN. destruct (pieces_sub xs y IN) as (u & v & E').
  unfold StoreProofs.small. rewrite E', !app_length in LX. lia.
Qed.

Lemma good_data : forall f ds xs fuel l, sr_blocks fuel f l = Some (Ok ds) ->
  Forall2 (good inflate f) ds xs -> N.of_nat (length (concat xs)) < 2 ^ 64 ->
  sr_data inflate fuel f l = Some (Ok (concat xs)).
Proof.
  intros f ds xs fuel l R G L. unfold sr_data. rewrite R. cbn [bind].
  rewrite (good_sizes inflate ds xs f G L). unfold w64. rewrite N.mod_small by auto.
  destruct (N.eqb_spec (N.of_nat (length (concat xs))) 0) as [E|E].
  - destruct (concat xs); [reflexivity|cbn in E; lia].
  - rewrite Nat2N.id. pose proof (good_copy inflate ds xs f [] G L) as C. cbn [app length] in C. change (N.of_nat 0) with 0 in C.
    rewrite C. reflexivity.
Qed.

Lemma rd_links_at : forall ps ks xs f lo hi, blocks_at f lo ps ks hi -> N.of_nat (length f) < 2 ^ 63 ->
  Forall2 (made_from deflate) ks xs -> Forall StoreProofs.small xs ->
  rd_links f (map N.of_nat ps) = existsb is_row ks.
Proof.
  induction ps as [|p ps IH]; intros [|k ks] xs f lo hi B L M S; cbn [blocks_at] in B; try contradiction; [reflexivity|].
  inversion M as [|? x ? xs' M1 M2]; subst. apply Forall_cons_iff in S as [S1 S2]. destruct B as (_ & DA & B).
  unfold rd_links in *. cbn [map existsb]. rewrite (IH ks xs' f _ hi B L M2 S2).
  rewrite (pos64_pos f p k DA L), Nat2N.id, (kind_at f p k x M1 DA L S1). reflexivity.
Qed.

Lemma ps_below : forall ps ks f lo hi, blocks_at f lo ps ks hi -> N.of_nat (length f) < 2 ^ 63 -> Forall (fun l => l < 2 ^ 64) (map N.of_nat ps).
Proof.
  induction ps as [|p ps IH]; intros [|k ks] f lo hi B L; cbn [blocks_at map] in *; try contradiction; constructor.
  - destruct B as (_ & B & _). apply dblk_at_range in B. unfold dblk_end in B. lia.
  - destruct B as (_ & _ & B). eapply IH; eauto.
Qed.
Lemma numbers_skip : forall (t : bool) n l f pos rest, holds f pos ((if t then numbers n l else []) ++ rest) -> below64 l ->
  exists p, (if t then bind (read_links false 8 n f pos) (fun '(_, p) => Ok p) else Ok pos) = Ok p /\ holds f p rest.
Proof.
  intros t n l f pos rest H B. apply holds_app in H as [H1 H2]. destruct t.
  - rewrite (numbers_read n l f pos H1 B). cbn [bind]. eexists. split; [reflexivity|].
    replace (length (numbers n l)) with (8 * n)%nat in H2; [exact H2|]. unfold numbers.
    rewrite (pieces_length _ 8); [rewrite map_length, seq_length; lia|]. apply Forall_map, Forall_forall. intros. apply le_bytes_length.
  - exists pos. split; [reflexivity|]. cbn [length] in H2. rewrite Nat.add_0_r in H2. exact H2.
Qed.
Lemma read_ld_at : forall f p d (ks : list dblk) next ps, N.of_nat (length f) < 2 ^ 63 -> length ps = length ks ->
  holds f p (header_bytes ty_ld (N.of_nat (24 + 8 * (1 + length ks) + length (ld_body d (length ks)))) (N.of_nat next :: map N.of_nat ps) ++ ld_body d (length ks)) ->
  N.of_nat next < 2 ^ 64 -> Forall (fun l => l < 2 ^ 64) (map N.of_nat ps) ->
  dl_flags d < 2 ^ 32 -> dl_equal d < 2 ^ 64 -> below64 (dl_offs d) -> below64 (dl_time d) -> below64 (dl_angle d) -> below64 (dl_dist d) ->
  N.of_nat (length ks) < 2 ^ 32 -> read_ld f p = Ok (N.of_nat next, map N.of_nat ps).
Proof.
  intros f p d ks next ps L LP H NB PB F1 F2 F3 F4 F5 F6 F7. apply holds_app in H as [Hh Hb]. rewrite header_bytes_length in Hb.
  assert (LE : (p + (24 + 8 * (1 + length ks)) + length (ld_body d (length ks)) <= length f)%nat).
  { destruct Hb as [Hb _]. cbn [length] in Hb. rewrite map_length in Hb. lia. }
  unfold read_ld. rewrite (read_header4_at f p ty_ld _ _ Hh (four_plain 76 68 ltac:(repeat split; discriminate)) ltac:(cbn; lia) ltac:(lia) ltac:(cbn [length]; rewrite map_length; lia)
    ltac:(constructor; auto)).
  cbn [bind]. set (p0 := (p + _)%nat) in *.
  unfold ld_body in Hb. apply holds_app in Hb as [B1 Hb]. rewrite le_bytes_length in Hb. apply holds_app in Hb as [B2 Hb]. rewrite le_bytes_length in Hb.
  rewrite (read_num_le _ _ 4 (dl_flags d)) by auto. cbn [bind]. rewrite (read_num_le _ _ 4 (N.of_nat (length ks))) by auto. cbn [bind]. rewrite Nat2N.id.
  assert (S1 : exists q, (if N.testbit (dl_flags d) 0 then bind (read_num false 8 f (p0 + 4 + 4)%nat) (fun '(_, p) => Ok p)
      else bind (read_links false 8 (length ks) f (p0 + 4 + 4)%nat) (fun '(_, p) => Ok p)) = Ok q /\
    holds f q ((if N.testbit (dl_flags d) 1 then numbers (length ks) (dl_time d) else []) ++
      (if N.testbit (dl_flags d) 2 then numbers (length ks) (dl_angle d) else []) ++ (if N.testbit (dl_flags d) 3 then numbers (length ks) (dl_dist d) else []))).
  { destruct (N.testbit (dl_flags d) 0).
    - apply holds_app in Hb as [A B]. rewrite le_bytes_length in B. rewrite (read_num_le _ _ 8 (dl_equal d)) by auto. cbn [bind]. eauto.
    - exact (numbers_skip true _ _ _ _ _ Hb F3). }
  destruct S1 as (q1 & -> & H1). cbn [bind]. destruct (numbers_skip _ _ _ _ _ _ H1 F4) as (q2 & -> & H2). cbn [bind].
  destruct (numbers_skip _ _ _ _ _ _ H2 F5) as (q3 & -> & H3). cbn [bind]. rewrite <- (app_nil_r (if N.testbit (dl_flags d) 3 then _ else _)) in H3.
  destruct (numbers_skip _ _ _ _ _ _ H3 F6) as (q4 & -> & _). cbn [bind]. f_equal. f_equal.
  unfold link. cbn [b_links]. rewrite <- LP, <- (map_length N.of_nat ps). apply link_list_nth.
Qed.
Lemma lds_below : forall lds f p hi, lds_at f p lds hi -> (hi <= length f)%nat -> N.of_nat (length f) < 2 ^ 63 -> N.of_nat p < 2 ^ 63.
Proof.
  intros [|[d ks] lds] f p hi H HI L; cbn [lds_at] in H; [subst; reflexivity|]. destruct H as (next & ps & lo & mid & P & H & R & _). lia.
Qed.
Lemma read_lds_at : forall lds f p hi xs fuel, lds_at f p lds hi -> (hi <= length f)%nat -> N.of_nat (length f) < 2 ^ 63 ->
  Forall (fun '(d, ks) => dl_flags d < 2 ^ 32 /\ dl_equal d < 2 ^ 64 /\ below64 (dl_offs d) /\ below64 (dl_time d) /\
    below64 (dl_angle d) /\ below64 (dl_dist d) /\ N.of_nat (length (ks : list dblk)) < 2 ^ 32) lds ->
  Forall2 (made_from deflate) (concat (map snd lds)) xs -> Forall StoreProofs.small xs -> (length lds < fuel)%nat ->
  exists ls ds, read_lds fuel f (N.of_nat p) = Some (Ok (ls, ds)) /\ Forall2 (good inflate f) ds xs /\
    rd_links f ls = existsb is_row (concat (map snd lds)).
Proof.
  induction lds as [|[d ks] lds IH]; intros f p hi xs fuel H HI L OK M SM FU; (destruct fuel as [|fuel]; [lia|]); cbn [lds_at map concat length read_lds] in *.
  - subst p. change (pos64 (N.of_nat 0)) with false. cbv iota. inversion M; subst. exists [], []. split; [reflexivity|]. split; [constructor|reflexivity].
  - apply Forall_cons_iff in OK as [(F1 & F2 & F3 & F4 & F5 & F6 & F7) OK]. destruct H as (next & ps & lo & mid & P & H & R & B & MH & C).
    cbn [snd] in M. apply Forall2_app_inv_l in M. destruct M as (xs1 & xs2 & M1 & M2 & ->). apply Forall_app in SM as [SM1 SM2].
    pose proof (blocks_at_range _ _ _ _ _ B) as [_ LP]. pose proof (lds_below _ _ _ _ C HI L) as NB.
    assert (P64 : pos64 (N.of_nat p) = true) by (unfold pos64; apply andb_true_iff; split; apply N.ltb_lt; lia).
    rewrite P64, Nat2N.id.
    rewrite (read_ld_at f p d ks next ps L LP H ltac:(lia) (ps_below _ _ _ _ _ B L) F1 F2 F3 F4 F5 F6 F7).
    destruct (read_link_list_at deflate inflate Z ps ks xs1 f lo mid B L M1 SM1) as (ds & RL & G). rewrite RL.
    destruct (IH f next hi xs2 fuel C HI L OK M2 SM2 ltac:(lia)) as (ls' & ds' & RR & G' & RD). rewrite RR.
    eexists _, _. split; [reflexivity|]. split; [apply Forall2_app; auto|]. unfold rd_links in *. rewrite !existsb_app. f_equal; [|exact RD].
    eapply (rd_links_at ps); eauto.
Qed.

Lemma stored_reads : forall st f p hi xs fuel, stored f st p hi -> (hi <= length f)%nat -> N.of_nat (length f) < 2 ^ 63 ->
  storage_ok st -> Forall2 (made_from deflate) (blocks_of st) xs -> N.of_nat (length (concat xs)) < 2 ^ 63 -> (steps st <= fuel)%nat ->
  (exists ds, sr_blocks fuel f (N.of_nat p) = Some (Ok ds) /\ Forall2 (good inflate f) ds xs) /\
  is_rd fuel f (N.of_nat p) = existsb is_row (blocks_of st) /\ (p < length f)%nat.
Proof.
  induction st as [k|d ks|lds|flg tyy st IH]; intros f p hi xs fuel S HI L OK M LX FU; pose proof (smalls xs LX) as SM; cbn [stored blocks_of steps storage_ok] in *;
    (destruct fuel as [|fuel]; [lia|]).
  - destruct fuel as [|fuel]; [lia|]. destruct S as [D E]. inversion M as [|? x ? xs' M1 M2]; subst. inversion M2; subst. apply Forall_cons_iff in SM as [S1 _].
    pose proof (pos64_pos f p k D L) as P64.
    destruct (dblk_read deflate inflate Z f p k x M1 D L S1) as (dd & R & G1 & G2 & G3).
    assert (T : eqb_type (read_type f p) 68 90 = true \/ raw_type (read_type f p) = true)
      by (destruct R as [[A _]|[_ [A _]]]; auto).
    destruct (data_type _ T) as (T1 & T2 & T3). pose proof (dblk_at_range _ _ _ D) as RG. unfold dblk_end in RG. split; [|split; [|lia]].
    + exists [dd]. split; [|constructor; [split; auto|constructor]].
      cbn [sr_blocks]. rewrite P64, Nat2N.id, T1, T2. apply read_blocks_one; auto.
    + cbn [is_rd existsb]. rewrite P64, Nat2N.id, T1, T2, T3, (kind_at f p k x M1 D L S1). rewrite orb_false_r. reflexivity.
  - destruct fuel as [|fuel]; [lia|]. destruct S as (b & <- & D & E). destruct OK as (F1 & F2 & F3 & F4).
    pose proof (dl_at_type _ _ _ _ _ D) as T. pose proof D as (ps & P & TY & LN & LK & H & B).
    pose proof (dl_at_range _ _ _ _ _ D) as RG.
    assert (P64 : pos64 (N.of_nat (b_pos b)) = true) by (unfold pos64, dl_size in *; apply andb_true_iff; split; apply N.ltb_lt; lia).
    destruct (read_dl_at deflate inflate Z f b d ks xs _ D ltac:(constructor; auto) L HI ltac:(rewrite E; reflexivity) M SM)
      as (i & R & G1 & G2 & G3 & G4 & G5 & G6).
    split; [|split; [|unfold dl_size in *; lia]].
    + exists (di_blocks i). split; [|exact G6].
      cbn [sr_blocks]. rewrite P64, Nat2N.id, T. cbn [eqb_type]. change (68 =? 76) with false. change (68 =? 72) with false. cbn [andb].
      destruct fuel as [|fuel]; [lia|].
      cbn [read_blocks]. rewrite P64, Nat2N.id, T. cbn [eqb_type raw_type orb andb].
      change (68 =? 68) with true. change (76 =? 90) with false. change (76 =? 84) with false.
      change (76 =? 86) with false. change (76 =? 73) with false. change (68 =? 82) with false.
      change (68 =? 83) with false. change (76 =? 76) with true. cbn [orb andb].
      rewrite read_dls_S, P64, Nat2N.id, R, G5, E. rewrite read_dls_S. change (pos64 0) with false. cbn [bind map concat].
      rewrite app_nil_r. reflexivity.
    + cbn [is_rd]. rewrite P64, Nat2N.id, T. cbn [eqb_type]. change (68 =? 76) with false. change (68 =? 72) with false.
      change (68 =? 68) with true. change (76 =? 76) with true. cbn [andb].
      destruct fuel as [|fuel]; [lia|]. cbn [rd_dls]. rewrite P64, Nat2N.id, R, G5, E. change (pos64 0) with false. cbn [orb].
      rewrite orb_false_r. unfold dl_links. rewrite G2, Nat2N.id.
      pose proof (blocks_at_range _ _ _ _ _ B) as [_ LP].
      apply holds_app in H as [Hh _].
      assert (LL : length (b_links b) = (1 + length ks)%nat) by (rewrite LK; cbn [length]; rewrite map_length; lia).
      assert (FL : Forall (fun l => l < 2 ^ 64) (b_links b)).
      { rewrite LK, E. constructor; [reflexivity|]. revert B. generalize (b_pos b + dl_size d (length ks))%nat as lo.
        intros lo B. clear - B L. revert lo ks B. induction ps as [|p ps IH]; intros lo [|k ks] B; cbn [blocks_at map] in *; try contradiction; constructor.
        - destruct B as (_ & B & _). apply dblk_at_range in B. unfold dblk_end in B. lia.
        - destruct B as (_ & _ & B). eapply IH; eauto. }
      rewrite (read_header4_at f (b_pos b) (b_type b) (b_len b) (b_links b)); auto;
        [|rewrite TY; apply four_plain; repeat split; discriminate|rewrite TY; cbn; lia|unfold dl_size in *; lia|lia].
      replace (mkB (b_pos b) (b_type b) (b_len b) (b_links b)) with b by (destruct b; reflexivity).
      assert (LS : map (fun i => link b (1 + i)) (seq 0 (length ks)) = map N.of_nat ps).
      { unfold link. rewrite LK. rewrite <- LP. rewrite <- (map_length N.of_nat ps). apply link_list_nth. }
      rewrite LS. eapply rd_links_at; eauto.
  - destruct OK as (NE & OK). destruct (read_lds_at lds f p hi xs fuel S HI L OK M SM ltac:(lia)) as (ls & ds & RL & G & RD).
    destruct lds as [|[d ks] lds]; [contradiction|]. cbn [lds_at] in S. destruct S as (next & ps & lo & mid & P & H & R & _).
    assert (P64 : pos64 (N.of_nat p) = true) by (unfold pos64; apply andb_true_iff; split; apply N.ltb_lt; lia).
    apply holds_app in H as [H _]. assert (T2 : two_ok 76 68) by (repeat split; discriminate). pose proof (read_type_at _ _ _ _ _ _ T2 H) as T.
    split; [|split; [|lia]].
    + exists ds. split; [|exact G]. cbn [sr_blocks]. rewrite P64, Nat2N.id, T. change (eqb_type [76; 68] 76 68) with true. cbv iota. rewrite RL. reflexivity.
    + cbn [is_rd]. rewrite P64, Nat2N.id, T. change (eqb_type [76; 68] 76 68) with true. cbv iota. rewrite RL. exact RD.
  - destruct OK as (F1 & F2 & OK). destruct S as (p' & hi' & H & R & LH & S).
    destruct (IH f p' hi' xs fuel S ltac:(lia) L OK M LX ltac:(lia)) as ((ds & RB & G) & RD & LP).
    pose proof (read_hl_at f _ _ H L ltac:(lia)) as [RH T]. cbn [b_pos] in RH, T. pose proof H as (_ & _ & _ & _ & P & _). cbn [b_pos] in P.
    assert (P64 : pos64 (N.of_nat p) = true) by (unfold pos64; apply andb_true_iff; split; apply N.ltb_lt; lia).
    split; [|split; [|lia]].
    + exists ds. split; [|exact G]. cbn [sr_blocks]. rewrite P64, Nat2N.id, T. change (eqb_type [72; 76] 76 68) with false. change (eqb_type [72; 76] 72 76) with true.
      cbv iota. rewrite RH. exact RB.
    + cbn [is_rd]. rewrite P64, Nat2N.id, T. change (eqb_type [72; 76] 76 68) with false. change (eqb_type [72; 76] 72 76) with true.
      cbv iota. rewrite RH. exact RD.
Qed.

(** The SR block. *)
Definition sr_body (nof interval type flags : N) : list N :=
  le_bytes 8 nof ++ le_bytes 8 interval ++ le_bytes 1 type ++ le_bytes 1 flags ++ repeat 0 6.

Lemma sr_at : forall f pos len nof interval type flags next l,
  holds f pos (header_bytes ty_sr len [next; l] ++ sr_body nof interval type flags) ->
  len < 2 ^ 64 -> nof < 2 ^ 64 -> interval < 2 ^ 64 -> type < 256 -> flags < 256 -> next < 2 ^ 64 -> l < 2 ^ 64 ->
  read_sr f pos = Ok (mkSr nof interval type flags next l).
Proof.
  intros f pos len nof interval type flags next l H B0 B1 B2 B3 B4 B5 B6. apply holds_app in H as [H1 H2].
  rewrite header_bytes_length in H2. unfold read_sr. rewrite (read_header4_at f pos ty_sr len [next; l]); auto;
    try (apply four_plain; repeat split; discriminate); try reflexivity; try (cbn; lia).
  cbn [bind]. unfold sr_body in H2.
  apply holds_app in H2 as [A H2]. rewrite le_bytes_length in H2.
  apply holds_app in H2 as [B H2]. rewrite le_bytes_length in H2.
  apply holds_app in H2 as [C H2]. rewrite le_bytes_length in H2.
  apply holds_app in H2 as [D H2]. rewrite le_bytes_length in H2.
  rewrite (read_num_le _ _ 8 nof) by auto. cbn [bind].
  rewrite (read_num_le _ _ 8 interval) by auto. cbn [bind].
  rewrite (read_num_le _ _ 1 type) by auto. cbn [bind].
  rewrite (read_num_le _ _ 1 flags) by auto. cbn [bind].
  apply holds_slice_eq in H2. change (length (repeat 0 6)) with 6%nat in H2. rewrite H2. reflexivity.
Qed.

Lemma write_sr_spec : forall nof interval type flags next l f, (0 < length f)%nat ->
  exists f' b, write_sr nof interval type flags next l f = Ok (f', b) /\ agree f f' 0 (length f) /\ (length f <= length f')%nat /\
    holds f' (b_pos b) (header_bytes ty_sr 64 [next; l] ++ sr_body nof interval type flags).
Proof.
  intros nof interval type flags next l f L. unfold write_sr. rewrite write_block4_spec by auto. fold (sr_body nof interval type flags).
  assert (LB : length (sr_body nof interval type flags) = 24%nat).
  { unfold sr_body. rewrite !app_length, !le_bytes_length, repeat_length. reflexivity. }
  rewrite LB. change (N.of_nat (24 + 8 * length [next; l] + 24)) with 64.
  eexists _, _. split; [reflexivity|]. split; [apply agree_app; lia|]. split; [rewrite app_length; lia|]. cbn [b_pos].
  rewrite app_assoc. pose proof (holds_end (f ++ repeat 0 (pad8 (length f))) (header_bytes ty_sr 64 [next; l] ++ sr_body nof interval type flags) []) as X.
  rewrite app_nil_r in X. rewrite app_length, repeat_length in X. exact X.
Qed.

Lemma existsb_rows : forall ks xs, Forall2 (made_from deflate) ks xs -> (existsb is_row ks = true <-> Exists row_block ks).
Proof.
  intros ks xs M. induction M as [|k x ks xs M1 _ IH]; cbn [existsb].
  - split; [discriminate|]. intros H. inversion H.
  - rewrite orb_true_iff, Exists_cons, IH, (is_row_iff k x M1). reflexivity.
Qed.

Context (h fl : N -> N).

Lemma sr_file : forall st xs f nof interval type flags next, (0 < length f)%nat -> storage_ok st ->
  Forall2 (made_from deflate) (blocks_of st) xs -> N.of_nat (length (concat xs)) < 2 ^ 63 ->
  nof < 2 ^ 64 -> interval < 2 ^ 64 -> type < 256 -> flags < 256 -> next < 2 ^ 64 ->
  exists f1 b f2 s, write_storage st f = Ok (f1, b) /\ write_sr nof interval type flags next (N.of_nat (b_pos b)) f1 = Ok (f2, s) /\
    forall g fuel, N.of_nat (length (f2 ++ g)) < 2 ^ 63 -> (steps st <= fuel)%nat ->
      read_sr (f2 ++ g) (b_pos s) = Ok (mkSr nof interval type flags next (N.of_nat (b_pos b))) /\
      forall c ds is sample idx,
      sr_get inflate h fl fuel (f2 ++ g) (b_pos s) c ds is sample idx
      = Some (sr_value h fl c (existsb is_row (blocks_of st)) nof ds is (concat xs) sample idx).
Proof.
  intros st xs f nof interval type flags next L OK M LX B1 B2 B3 B4 B5.
  destruct (storage_spec st f L OK) as (f1 & b & W & (hi & HI & S) & L1).
  destruct (write_sr_spec nof interval type flags next (N.of_nat (b_pos b)) f1 ltac:(lia)) as (f2 & s & W2 & A & L2 & H).
  exists f1, b, f2, s. split; [exact W|]. split; [exact W2|]. intros g fuel LG FU. rewrite app_length in LG.
  assert (A2 : agree f1 (f2 ++ g) 0 hi).
  { destruct A as [A1 A2]. split; [rewrite app_length; lia|]. intros i I. rewrite nth_error_app1 by lia. apply A2. lia. }
  pose proof (stored_frame _ _ _ _ _ S A2) as S2. apply (holds_ext f2 g) in H.
  destruct (stored_reads st (f2 ++ g) (b_pos b) hi xs fuel S2 ltac:(rewrite app_length; lia) ltac:(rewrite app_length; lia) OK M LX FU) as ((ds & RB & G) & RD & PB).
  rewrite app_length in PB.
  pose proof (sr_at (f2 ++ g) (b_pos s) 64 nof interval type flags next (N.of_nat (b_pos b)) H ltac:(reflexivity) B1 B2 B3 B4 B5 ltac:(lia)) as R.
  split; [exact R|]. intros c ds' is sample idx. unfold sr_get. rewrite R. cbn [sr_link sr_nof].
  rewrite (good_data _ _ _ _ _ RB G ltac:(lia)), RD. reflexivity.
Qed.

End File.
