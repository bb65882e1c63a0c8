(** Proofs about attachments. *)
From Verif Require Import Base BlockModel MetaModel MetaSpec IdentModel IdentSpec QueueModel MeasModel
  Md5Model Md5Spec Md5Props AttModel AttSpec.
Local Open Scope N_scope.

Lemma bytes_eqb_refl : forall x, bytes_eqb x x = true.
Proof. intros x. unfold bytes_eqb. destruct (list_eq_dec N.eq_dec x x); congruence. Qed.

Lemma bytes_eqb_true : forall x y, bytes_eqb x y = true <-> x = y.
Proof. intros x y. unfold bytes_eqb. destruct (list_eq_dec N.eq_dec x y); split; congruence. Qed.

Lemma concat_pieces : forall n l, (length l <= n)%nat -> concat (pieces n l) = l.
Proof.
  induction n as [|n IH]; intros l L; [destruct l; [reflexivity|cbn in L; lia]|].
  destruct l as [|x r]; [reflexivity|]. cbn [pieces concat]. rewrite IH.
  - apply firstn_skipn.
  - rewrite skipn_length. change (length (x :: r)) with (S (length r)) in *.
    assert (1 <= 10000)%nat as P by (apply Nat.leb_le; vm_compute; reflexivity).
    revert P. generalize 10000%nat. intros. lia.
Qed.

Lemma file_md5_ok : forall c, file_md5 c = Ok (rfc_md5 c).
Proof. intros c. unfold file_md5. apply C50_checksum. apply concat_pieces. lia. Qed.

Lemma hex_ok : forall m, flat_map (fun b => [hex_digit (b / 16); hex_digit (b mod 16)]) (rfc_md5 m) = hex_text (rfc_md5 m).
Proof.
  intros m. destruct (C50_string [m] m) as [E _]; [apply app_nil_r|].
  unfold md5_string in E. rewrite (C50_checksum [m] m) in E by apply app_nil_r. cbn [bind] in E. congruence.
Qed.

Section Zlib.
Context (deflate : list N -> list N).

Lemma flags4 : forall x, x < 4 ->
  embedded (N.lor x 4) = embedded x /\ compressed (N.lor x 4) = compressed x /\ with_md5 (N.lor x 4) = true /\
  N.lor x 4 < 2 ^ 16.
Proof.
  intros x L. assert (x = 0 \/ x = 1 \/ x = 2 \/ x = 3) as [->|[->|[->| ->]]] by lia; repeat split; reflexivity.
Qed.

(** What is stored for a file that can be attached. *)
Definition made (a : at4) (content : list N) : at4 :=
  mkAt (N.lor (x_flags a) 4) (x_creator a) (rfc_md5 content) (N.of_nat (length content))
    (if embedded (x_flags a) then if compressed (x_flags a) then deflate content else content else [])
    (x_name a) (x_type a) (x_md a).

Lemma load_made : forall fs a content, new_attachment a -> fs (x_name a) = Some content -> content <> [] ->
  (embedded (x_flags a) = true -> compressed (x_flags a) = true ->
     (length (deflate content) <= Nat.max (length content) 100)%nat) ->
  load deflate fs a = Ok (Some (made a content)).
Proof.
  intros fs a content (LF & _ & _ & SZ & DA & _) E NE R. destruct (flags4 _ LF) as (F0 & F1 & _ & _).
  unfold load. rewrite SZ, N.eqb_refl, E, file_md5_ok. cbn [bind]. cbv zeta. rewrite F0, F1. unfold made.
  destruct (embedded (x_flags a)); [destruct (compressed (x_flags a))|]; cbn [andb].
  - unfold deflate_file. destruct content as [|c r]; [congruence|].
    rewrite (proj2 (Nat.leb_le _ _) (R eq_refl eq_refl)). reflexivity.
  - reflexivity.
  - rewrite DA. reflexivity.
Qed.

Lemma made_ok : forall a content, new_attachment a -> N.of_nat (length content) < 2 ^ 64 -> at_ok (made a content).
Proof.
  intros a content (LF & U & _ & _ & _ & T1 & T2 & C) L. destruct (flags4 _ LF) as (_ & _ & _ & B).
  unfold at_ok, made. cbn [x_flags x_creator x_md5 x_size x_name x_type x_md].
  split; [exact B|]. split; [exact U|]. split; [apply digest_ok|]. split; [exact L|].
  split; [exact T1|]. split; [exact T2|exact C].
Qed.

(** ** Writing the list *)

Lemma atts_chain : forall fs xs ys z, Forall2 (fun x y => load deflate fs x = Ok (Some y)) xs ys ->
  Forall (fun x => load deflate fs x = Ok None) z -> (length z <= 1)%nat -> forall prev f,
  write_atts deflate fs (option_map Some prev) (xs ++ z) f =
  (let* '(f, l) := write_chain write_at prev ys f in Ok (f, l, ys)).
Proof.
  intros fs xs ys z F FZ LZ. induction F as [|x y xs ys E F IH]; intros prev f.
  - cbn [app]. destruct z as [|z [|z2 r]]; [reflexivity| |cbn in LZ; lia].
    inversion FZ as [|? ? Ez _]; subst. cbn [write_atts write_chain]. rewrite Ez. cbn [bind].
    destruct prev; reflexivity.
  - cbn [app write_atts write_chain]. rewrite E. cbn [bind].
    destruct (write_at y f) as [[f1 pos]| |]; [|reflexivity|reflexivity]. cbn [bind].
    destruct prev as [q|]; cbn [option_map bind].
    + rewrite (IH (Some pos)). destruct (write_chain _ _ _ _) as [[f3 l3]| |]; reflexivity.
    + rewrite (IH (Some pos)). destruct (write_chain _ _ _ _) as [[f3 l3]| |]; reflexivity.
Qed.

Lemma hd_fs : forall fs h ys f,
  (forall g, write_atts deflate fs None (h_ats h) g = (let* '(f, l) := write_chain write_at None ys g in Ok (f, l, ys))) ->
  write_hd_fs deflate fs h f = (let* '(f, b) := write_hd (set_ats ys h) f in Ok (f, b, set_ats ys h)).
Proof.
  intros fs h ys f E. unfold write_hd_fs, write_hd, write_hd_head.
  cbn [set_ats h_time h_class h_flags h_angle h_distance h_md h_fhs h_ats h_chs h_evs h_dgs].
  change (hd_fields (set_ats ys h)) with (hd_fields h).
  destruct (write_block4 _ _ _ _ f) as [[f1 b1]| |]; [|reflexivity|reflexivity]. cbn [bind].
  destruct (write_chain write_fh _ _ f1) as [[f2 l2]| |]; [|reflexivity|reflexivity]. cbn [bind].
  destruct (update_link4 b1 1 l2 f2) as [[f3 b3]| |]; [|reflexivity|reflexivity]. cbn [bind].
  destruct (write_md (h_md h) f3) as [[f4 l4]| |]; [|reflexivity|reflexivity]. cbn [bind].
  destruct (update_link4 b3 5 l4 f4) as [[f5 b5]| |]; [|reflexivity|reflexivity]. cbn [bind].
  rewrite E. destruct (write_chain write_at None ys f5) as [[f6 l6]| |]; [|reflexivity|reflexivity]. cbn [bind].
  destruct (update_link4 b5 3 l6 f6) as [[f7 b7]| |]; [|reflexivity|reflexivity]. cbn [bind].
  destruct (write_chain write_ch _ _ f7) as [[f8 l8]| |]; [|reflexivity|reflexivity]. cbn [bind].
  destruct (update_link4 b7 2 l8 f8) as [[f9 b9]| |]; [|reflexivity|reflexivity]. cbn [bind].
  destruct (write_chain write_ev _ _ f9) as [[f10 l10]| |]; [|reflexivity|reflexivity]. cbn [bind].
  destruct (update_link4 b9 4 l10 f10) as [[f11 b11]| |]; [|reflexivity|reflexivity]. cbn [bind].
  destruct (write_chain write_dg _ _ f11) as [[f12 l12]| |]; [|reflexivity|reflexivity]. cbn [bind].
  destruct (update_link4 b11 0 l12 f12) as [[f13 b13]| |]; reflexivity.
Qed.

Lemma init_fs : forall fs i h xs ys z, h_ats h = xs ++ z ->
  Forall2 (fun x y => load deflate fs x = Ok (Some y)) xs ys ->
  Forall (fun x => load deflate fs x = Ok None) z -> (length z <= 1)%nat ->
  init_meas_fs deflate fs i h = init_meas i (set_ats ys h).
Proof.
  intros fs i h xs ys z EA F FZ LZ. unfold init_meas_fs, init_meas, write_file.
  rewrite (hd_fs fs h ys) by (intros g; rewrite EA; apply (atts_chain fs xs ys z F FZ LZ None)).
  destruct (write_hd (set_ats ys h) _) as [[f b]| |]; reflexivity.
Qed.

End Zlib.

(** ** Reading it *)

Definition head_of (f : file) (a : at4) (k : ath) : Prop :=
  k_flags k = x_flags a /\ k_creator k = x_creator a /\ k_md5 k = x_md5 a /\ k_size k = x_size a /\
  k_name k = x_name a /\ k_type k = x_type a /\ k_md k = x_md a /\
  slice (k_pos k) (N.to_nat (k_bytes k)) f = x_data a /\ length (x_data a) = N.to_nat (k_bytes k).

Lemma read_head_at : forall f pos a n, read_at f pos = Ok (a, n) ->
  exists k, read_head f pos = Ok (k, n) /\ head_of f a k.
Proof.
  intros f pos a n H. unfold read_at in H. unfold read_head.
  destruct (read_header4 f pos) as [[b p]| |]; [|discriminate|discriminate]. cbn [bind] in *.
  destruct (read_seq _ f p) as [[vs q]| |]; [|discriminate|discriminate]. cbn [bind] in *. cbv zeta in *.
  destruct (length (slice q 16 f) <? 16)%nat; [discriminate|].
  destruct (read_seq _ f (q + 16)) as [[ws r]| |]; [|discriminate|discriminate]. cbn [bind] in *.
  destruct (read_tx f (link b 1)) as [t1| |]; [|discriminate|discriminate]. cbn [bind] in *.
  destruct (read_tx f (link b 2)) as [t2| |]; [|discriminate|discriminate]. cbn [bind] in *.
  destruct (read_md f (link b 3)) as [t3| |]; [|discriminate|discriminate]. cbn [bind] in *.
  destruct (length (slice r (N.to_nat (nth 1 ws 0%N)) f) <? N.to_nat (nth 1 ws 0%N))%nat eqn:L; [discriminate|].
  apply Nat.ltb_ge in L.
  assert (mkAt (nth 0 vs 0) (nth 1 vs 0) (slice q 16 f) (nth 0 ws 0) (slice r (N.to_nat (nth 1 ws 0)) f) t1 t2 t3 = a /\
          link b 0 = n) as [<- <-] by (split; congruence).
  eexists. split; [reflexivity|]. unfold head_of. cbn [k_flags k_creator k_md5 k_size k_bytes k_pos k_name k_type k_md
    x_flags x_creator x_md5 x_size x_data x_name x_type x_md].
  repeat (split; [reflexivity|]). unfold slice in *. rewrite firstn_length in *. lia.
Qed.

Lemma read_heads : forall fuel f l ats, read_chain read_at fuel f l = Ok ats ->
  exists ks, read_chain read_head fuel f l = Ok ks /\ Forall2 (head_of f) ats ks.
Proof.
  induction fuel as [|fuel IH]; intros f l ats H; cbn [read_chain] in *.
  - destruct (pos64 l); [discriminate|]. exists []. split; [reflexivity|]. assert ([] = ats) as <- by congruence. constructor.
  - destruct (pos64 l).
    + destruct (read_at f (N.to_nat l)) as [[a n]| |] eqn:E; [|discriminate|discriminate]. cbn [bind] in H.
      destruct (read_chain read_at fuel f n) as [r| |] eqn:ER; [|discriminate|discriminate]. cbn [bind] in H.
      destruct (read_head_at _ _ _ _ E) as (k & EK & HK). destruct (IH _ _ _ ER) as (ks & EKS & HKS).
      exists (k :: ks). rewrite EK. cbn [bind]. rewrite EKS. split; [reflexivity|].
      assert (a :: r = ats) as <- by congruence. constructor; auto.
    + exists []. split; [reflexivity|]. assert ([] = ats) as <- by congruence. constructor.
Qed.

Lemma attachments_file : forall fuel f d h, read_file fuel f = Ok (d, h) ->
  exists ks, attachments fuel f = Ok ks /\ Forall2 (head_of f) (h_ats h) ks.
Proof.
  intros fuel f d h H. unfold read_file in H. destruct (read_id f) as [i| |]; [|discriminate|discriminate].
  cbn [bind] in H. destruct (read_hd fuel f 64) as [h'| |] eqn:E; [|discriminate|discriminate]. cbn [bind] in H.
  assert (h' = h) as -> by congruence. clear H. unfold read_hd in E. unfold attachments.
  destruct (read_header4 f 64) as [[b p]| |]; [|discriminate|discriminate]. cbn [bind] in *.
  destruct (read_seq _ f p) as [[vs q]| |]; [|discriminate|discriminate]. cbn [bind] in E. cbv zeta in E.
  destruct (read_chain read_fh _ _ _) as [fhs| |]; [|discriminate|discriminate]. cbn [bind] in E.
  destruct (read_md f _) as [md| |]; [|discriminate|discriminate]. cbn [bind] in E.
  destruct (read_chain (read_dg fuel) _ _ _) as [dgs| |]; [|discriminate|discriminate]. cbn [bind] in E.
  destruct (read_chain read_at _ _ _) as [ats| |] eqn:EA; [|discriminate|discriminate]. cbn [bind] in E.
  destruct (read_chain (read_ch fuel) _ _ _) as [chs| |]; [|discriminate|discriminate]. cbn [bind] in E.
  destruct (read_chain read_ev _ _ _) as [evs| |]; [|discriminate|discriminate]. cbn [bind] in E.
  destruct (read_heads _ _ _ _ EA) as (ks & EK & F). exists ks. split; [exact EK|].
  assert (h_ats h = ats) as ->; [|exact F].
  match type of E with Ok ?x = _ => assert (h = x) as -> by congruence end. reflexivity.
Qed.

(** ** Exporting it *)

Lemma copy_slice : forall n (f : file) p, (length (slice p n f) = n)%nat -> copy_bytes f p n = slice p n f.
Proof.
  intros n f p L. unfold copy_bytes. unfold slice in *.
  assert (X : forall m (l : list N), length (firstn m l) = m -> map (fun i => nth i l 255) (seq 0 m) = firstn m l).
  { clear. induction m as [|m IH]; intros l H; [reflexivity|]. destruct l as [|x r]; [cbn in H; lia|].
    cbn [firstn seq map nth]. f_equal. rewrite <- seq_shift, map_map. cbn [nth]. apply IH. cbn in H. lia. }
  rewrite <- X by exact L. apply map_ext. intros i. clear.
  revert f. induction p as [|p IH]; intros f; [reflexivity|]. destruct f as [|x r]; [destruct i; reflexivity|].
  cbn [Nat.add nth skipn]. apply IH.
Qed.

Section Zlib2.
Context (deflate : list N -> list N).

Lemma made_bytes : forall inflate, zip_ok deflate inflate -> forall f a content k, new_attachment a -> content <> [] ->
  head_of f (made deflate a content) k -> embedded (x_flags a) = true ->
  embedded_bytes inflate f k = (content, true).
Proof.
  intros inflate Z f a content k (LF & _) NE (HF & _ & _ & _ & _ & _ & _ & HS & HL) EM.
  destruct (flags4 _ LF) as (F0 & F1 & _). cbn [made x_flags x_data] in *. rewrite EM in HS, HL.
  unfold embedded_bytes. rewrite HF, F1. destruct (compressed (x_flags a)).
  - unfold inflate_bytes. rewrite HS. destruct (Z content NE) as [N1 N2].
    destruct (deflate content) as [|c r]; [congruence|exact N2].
  - rewrite copy_slice; [rewrite HS; reflexivity|]. rewrite HS. exact HL.
Qed.

Lemma made_check : forall f a content k bytes, new_attachment a -> head_of f (made deflate a content) k ->
  check_md5 k bytes = bytes_eqb (rfc_md5 bytes) (rfc_md5 content).
Proof.
  intros f a content k bytes (LF & _) (HF & _ & HM & _). destruct (flags4 _ LF) as (_ & _ & F2 & _).
  unfold check_md5. cbn [made x_flags x_md5] in *. rewrite HF, F2, file_md5_ok, HM. reflexivity.
Qed.

Lemma made_shows : forall f a content k, new_attachment a -> head_of f (made deflate a content) k -> shows a content k.
Proof.
  intros f a content k (LF & _) (HF & HC & HM & HZ & HN & HT & HD & _). destruct (flags4 _ LF) as (F0 & F1 & F2 & _).
  unfold shows, md5_text. cbn [made x_flags x_creator x_md5 x_size x_name x_type x_md] in *.
  rewrite HF, F0, F1, F2, HM, hex_ok. repeat split; assumption.
Qed.

End Zlib2.
