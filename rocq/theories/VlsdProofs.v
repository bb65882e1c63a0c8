(** Bounds checks of getters and setters, signal data (SD), fixed-size text and byte arrays. *)
From Verif Require Import Base ChannelModel ChannelSpec BitProofs ChannelProofs SetProofs.
Local Open Scope N_scope.

(* ------------------------------------------------------------------ *)
(** ** Reads never leave the record *)

Lemma raw_loop_total : forall n le raw X first byte bit q v,
  (0 <= bit <= 7)%Z -> walks le raw X n byte bit q ->
  exists u, raw_loop le raw n first byte bit v = Some u.
Proof.
  induction n as [|n IH]; intros le raw X first byte bit q v Hb Hw.
  - exists v. reflexivity.
  - destruct (walks_step _ _ _ _ _ _ _ Hb Hw) as (b & Hrd & _ & Hw').
    rewrite (raw_loop_S _ _ _ _ _ _ _ _ Hrd).
    destruct (Z.ltb_spec (bit - 1) 0).
    + eapply IH; [|exact Hw']; lia.
    + eapply IH; [|exact Hw']; lia.
Qed.

Lemma raw_to_unsigned_total : forall le raw start len,
  bytes_ok raw -> field_inside raw start len -> N.of_nat (length raw) < 2 ^ 28 ->
  exists u, raw_to_unsigned le start len raw = Some u.
Proof.
  intros le raw start len Hok Hin Hsz. unfold field_inside in Hin.
  destruct (N.eq_dec len 0) as [->|Hl].
  { exists 0. unfold raw_to_unsigned. reflexivity. }
  assert (Hs31: start + len <= 2 ^ 31).
  { change (2^31) with (8 * 2^28). lia. }
  unfold raw_to_unsigned. rewrite last_bit_eq by lia.
  assert (Hb8: (start + len - 1) mod 8 < 8) by (apply N.mod_lt; lia).
  rewrite (to_int32_small ((start + len - 1) mod 8)).
  2:{ eapply N.lt_trans; [eassumption|reflexivity]. }
  destruct le.
  - rewrite to_int32_small by lia. rewrite quot8.
    eapply raw_loop_total; [|apply walks_le; auto; lia]. lia.
  - rewrite to_int32_small by lia. rewrite quot8.
    eapply raw_loop_total; [|apply walks_be; auto; lia]. lia.
Qed.

Section F.
Variable half_to_double float_to_double double_to_float : N -> N.

(** All getters: no out-of-bounds read; a field outside the record is a failed read. *)
Lemma get_channel_safe : forall c rec idx,
  bytes_ok rec -> N.of_nat (length rec) < 2 ^ 28 -> geom_ok c idx ->
  get_channel half_to_double float_to_double c rec idx <> UB /\
  (~ field_inside rec (start_of c idx) (ch_bits c) ->
   get_channel half_to_double float_to_double c rec idx = Fail).
Proof.
  intros c rec idx Hok Hsz Hg.
  pose proof (range_ok_iff c rec idx Hg) as Hr.
  assert (D: range_ok c rec idx = false \/
             (range_ok c rec idx = true /\ field_inside rec (start_of c idx) (ch_bits c) /\
              forall le, exists u, raw_to_unsigned le (bit_offset c idx) (ch_bits c) rec = Some u)).
  { destruct (range_ok c rec idx) eqn:E; auto. right. split; auto. split; [tauto|].
    intros le. rewrite bit_offset_eq by auto. apply raw_to_unsigned_total; tauto. }
  unfold get_channel, get_unsigned, get_signed, get_float, raw_to_signed.
  destruct D as [E|(E & Hin & Ht)]; rewrite E.
  - split; [|intros _]; destruct (ch_dtype c); cbn [bind]; congruence.
  - destruct (Ht true) as [u1 E1]. destruct (Ht false) as [u2 E2].
    split; [|tauto].
    destruct (ch_dtype c); cbn [bind]; try congruence;
      rewrite ?E1, ?E2; cbn [lift bind];
      try (destruct (is_vlsd (ch_type c)); cbn [lift bind]; congruence); try congruence;
      destruct (ch_bits c =? 16); cbn [bind]; try congruence;
      destruct (ch_bits c =? 32); cbn [bind]; try congruence;
      destruct (ch_bits c =? 64); cbn [bind]; congruence.
Qed.

(* ------------------------------------------------------------------ *)
(** ** Writes never leave the buffer (all setters but SetUnsignedValueBe) *)

Lemma set_geom_eq : forall c idx, set_geom_ok c idx ->
  w64 (ch_byte c + w64 (data_bytes c * w64 (idx + 1))) = ch_byte c + data_bytes c * (idx + 1) /\
  w64 (ch_byte c + w64 (data_bytes c * idx)) = ch_byte c + data_bytes c * idx.
Proof.
  intros c idx [H1 H2]. unfold w64. rewrite (N.mod_small (idx + 1)) by auto.
  assert (data_bytes c * idx <= data_bytes c * (idx + 1)) by (apply N.mul_le_mono_l; lia).
  set (a := data_bytes c * (idx + 1)) in *. set (b := data_bytes c * idx) in *.
  clearbody a b. rewrite (N.mod_small a), (N.mod_small b) by lia.
  rewrite !N.mod_small by lia. auto.
Qed.

Lemma put_safe : forall c le buf n v idx, set_geom_ok c idx -> N.of_nat n = data_bytes c ->
  ch_byte c + data_bytes c * (idx + 1) <= N.of_nat (length buf) ->
  exists b, put c le buf n v idx = Ok b /\ length b = length buf.
Proof.
  intros c le buf n v idx Hg Hn Hfit. unfold put, wr.
  destruct (set_geom_eq c idx Hg) as [_ E]. rewrite E. clear E. rewrite enc_length.
  assert (E: ch_byte c + data_bytes c * idx + N.of_nat n
             = ch_byte c + data_bytes c * (idx + 1)) by (rewrite Hn; lia).
  rewrite E. rewrite (proj2 (N.leb_le _ _) Hfit). cbn [lift].
  eexists. split; [reflexivity|]. apply splice_length. rewrite enc_length. lia.
Qed.

Lemma put_int_safe : forall c le buf v idx, set_geom_ok c idx ->
  ch_byte c + data_bytes c * (idx + 1) <= N.of_nat (length buf) ->
  exists b, put_int c le buf v idx = Ok b /\ length b = length buf.
Proof.
  intros c le buf v idx Hg Hfit. unfold put_int.
  destruct (N.eq_dec (data_bytes c) 1) as [E|E1]; [rewrite E; apply put_safe; auto|].
  destruct (N.eq_dec (data_bytes c) 2) as [E|E2]; [rewrite E; apply put_safe; auto|].
  destruct (N.eq_dec (data_bytes c) 4) as [E|E3]; [rewrite E; apply put_safe; auto|].
  destruct (N.eq_dec (data_bytes c) 8) as [E|E4]; [rewrite E; apply put_safe; auto|].
  exists (set_valid c buf false idx). split; [|apply set_valid_length].
  destruct (data_bytes c) as [|[[[[|[]|]|[|[]|]|]|[[|[]|]|[|[]|]|]|]|[[[|[]|]|[|[]|]|]|[[|[]|]|[|[]|]|]|]|]]; congruence.
Qed.

Definition setter_checked (c : chan) : Prop := ch_dtype c <> UnsignedBe.

Lemma set_channel_safe : forall c buf v valid idx,
  setter_checked c -> set_geom_ok c idx ->
  set_channel double_to_float c buf v valid idx <> UB /\
  (forall b, set_channel double_to_float c buf v valid idx = Ok b -> length b = length buf) /\
  (N.of_nat (length buf) < ch_byte c + data_bytes c * (idx + 1) ->
   forall b, set_channel double_to_float c buf v valid idx = Ok b ->
   b = buf \/ b = set_valid c buf false idx).
Proof.
  intros c buf v valid idx Hbe Hg.
  destruct (set_geom_eq c idx Hg) as [Hw _].
  assert (T: too_big c buf idx = (N.of_nat (length buf) <? ch_byte c + data_bytes c * (idx + 1)))
    by (unfold too_big; rewrite Hw; reflexivity).
  assert (P: forall r, (exists b, r = Ok b /\ length b = length buf) ->
             ch_byte c + data_bytes c * (idx + 1) <= N.of_nat (length buf) ->
             r <> UB /\ (forall b, r = Ok b -> length b = length buf) /\
             (N.of_nat (length buf) < ch_byte c + data_bytes c * (idx + 1) ->
              forall b, r = Ok b -> b = buf \/ b = set_valid c buf false idx)).
  { intros r (b & -> & Hl) Hle. repeat split; try congruence. intros; lia. }
  assert (Q: forall r, r = Fail \/ r = Ok buf \/ r = Ok (set_valid c buf false idx) ->
             r <> UB /\ (forall b, r = Ok b -> length b = length buf) /\
             (N.of_nat (length buf) < ch_byte c + data_bytes c * (idx + 1) ->
              forall b, r = Ok b -> b = buf \/ b = set_valid c buf false idx)).
  { intros r [->|[->| ->]]; (split; [congruence|]; split;
      [intros b Hb; inversion Hb; subst; rewrite ?set_valid_length; auto
      |intros _ b Hb; inversion Hb; auto]). }
  assert (PI: forall le x, ch_byte c + data_bytes c * (idx + 1) <= N.of_nat (length buf) ->
     exists b, put_int c le (set_valid c buf valid idx) x idx = Ok b /\ length b = length buf).
  { intros le x Hle. destruct (put_int_safe c le (set_valid c buf valid idx) x idx Hg) as (b & Hb & Hl).
    - rewrite set_valid_length; auto.
    - rewrite set_valid_length in Hl. eauto. }
  unfold set_channel, setter_checked in *.
  destruct (ch_dtype c) eqn:Ed; destruct v; try congruence; try (apply Q; auto; fail);
    unfold set_unsigned_le, set_signed, set_float; (destruct buf as [|b0 buf0] eqn:Eb; [apply Q; auto|]);
    rewrite <- Eb in *; clear Eb; rewrite T;
    destruct (N.ltb_spec (N.of_nat (length buf)) (ch_byte c + data_bytes c * (idx + 1)));
    try (apply Q; auto; fail); try (apply P; auto; fail); cbv zeta.
  - apply P; auto.
    destruct (N.eq_dec (data_bytes c) 4) as [E|E3].
    { rewrite E. destruct (put_safe c true (set_valid c buf valid idx) 4 (double_to_float double_bits) idx Hg)
        as (b & Hb & Hl); rewrite ?set_valid_length in *; auto. eauto. }
    destruct (N.eq_dec (data_bytes c) 8) as [E|E4].
    { rewrite E. destruct (put_safe c true (set_valid c buf valid idx) 8 double_bits idx Hg)
        as (b & Hb & Hl); rewrite ?set_valid_length in *; auto. eauto. }
    exists (set_valid c (set_valid c buf valid idx) false idx).
    split; [|rewrite !set_valid_length; reflexivity].
    destruct (data_bytes c) as [|[[[[|[]|]|[|[]|]|]|[[|[]|]|[|[]|]|]|]|[[[|[]|]|[|[]|]|]|[[|[]|]|[|[]|]|]|]|]]; congruence.
  - apply P; auto.
    destruct (N.eq_dec (data_bytes c) 4) as [E|E3].
    { rewrite E. destruct (put_safe c false (set_valid c buf valid idx) 4 (double_to_float double_bits) idx Hg)
        as (b & Hb & Hl); rewrite ?set_valid_length in *; auto. eauto. }
    destruct (N.eq_dec (data_bytes c) 8) as [E|E4].
    { rewrite E. destruct (put_safe c false (set_valid c buf valid idx) 8 double_bits idx Hg)
        as (b & Hb & Hl); rewrite ?set_valid_length in *; auto. eauto. }
    exists (set_valid c (set_valid c buf valid idx) false idx).
    split; [|rewrite !set_valid_length; reflexivity].
    destruct (data_bytes c) as [|[[[[|[]|]|[|[]|]|]|[[|[]|]|[|[]|]|]|]|[[[|[]|]|[|[]|]|]|[[|[]|]|[|[]|]|]|]|]]; congruence.
Qed.
End F.

(* ------------------------------------------------------------------ *)
(** ** Signal data *)

Lemma sd_appends_prefix : forall vs data, exists t, snd (sd_appends data vs) = data ++ t.
Proof.
  induction vs as [|v vs IH]; intros data; cbn [sd_appends sd_append].
  - exists []. rewrite app_nil_r. reflexivity.
  - destruct (IH (data ++ le_bytes 4 (w32 (N.of_nat (length v))) ++ v)) as [t Ht].
    destruct (sd_appends (data ++ le_bytes 4 (w32 (N.of_nat (length v))) ++ v) vs) as [is_ d2].
    cbn [snd] in *. eexists. rewrite Ht, <- app_assoc. reflexivity.
Qed.

Lemma sd_lookup_at : forall pre v post,
  N.of_nat (length v) < 2 ^ 32 ->
  N.of_nat (length (pre ++ (le_bytes 4 (N.of_nat (length v)) ++ v) ++ post)) < 2 ^ 64 ->
  sd_lookup (pre ++ (le_bytes 4 (N.of_nat (length v)) ++ v) ++ post) (N.of_nat (length pre)) = Ok v.
Proof.
  intros pre v post Hv Hd.
  set (data := pre ++ (le_bytes 4 (N.of_nat (length v)) ++ v) ++ post) in *.
  assert (Hl: length data = (length pre + 4 + length v + length post)%nat).
  { unfold data. rewrite !app_length, le_bytes_length. lia. }
  rewrite Hl in Hd.
  unfold sd_lookup. unfold w64 at 1. rewrite N.mod_small by lia.
  destruct (N.ltb_spec (N.of_nat (length data)) (N.of_nat (length pre) + 4)); [lia|].
  unfold rd_block at 1. rewrite (proj2 (N.leb_le _ _)) by lia.
  assert (E: slice (N.to_nat (N.of_nat (length pre))) (N.to_nat 4) data
             = le_bytes 4 (N.of_nat (length v))).
  { rewrite Nat2N.id. unfold data. rewrite slice_app_r, Nat.sub_diag by lia.
    rewrite <- !app_assoc, slice_app_l by (rewrite le_bytes_length; lia).
    replace (N.to_nat 4) with (length (le_bytes 4 (N.of_nat (length v)))) by (rewrite le_bytes_length; lia).
    apply slice_full. }
  rewrite E. cbv zeta. rewrite le_num_bytes.
  change (256 ^ N.of_nat 4) with (2 ^ 32). rewrite (N.mod_small (N.of_nat (length v))) by auto.
  unfold w64. rewrite !N.mod_small by lia.
  rewrite (proj2 (N.leb_le _ _)) by lia.
  unfold rd_block. rewrite (proj2 (N.leb_le _ _)) by lia. cbn [lift]. f_equal.
  unfold data. rewrite slice_app_r by lia. rewrite <- app_assoc, slice_app_r; rewrite ?le_bytes_length; [|lia].
  replace (N.to_nat (N.of_nat (length pre) + 4) - length pre - 4)%nat with 0%nat by lia.
  rewrite Nat2N.id, slice_app_l by lia. apply slice_full.
Qed.

Lemma sd_lookup_appended : forall vs data k v i,
  nth_error vs k = Some v -> N.of_nat (length v) < 2 ^ 32 ->
  nth_error (fst (sd_appends data vs)) k = Some i ->
  N.of_nat (length (snd (sd_appends data vs))) < 2 ^ 64 ->
  sd_lookup (snd (sd_appends data vs)) i = Ok v.
Proof.
  induction vs as [|x vs IH]; intros data [|k] v i Hv Hlt Hi Hl; try discriminate;
    cbn [nth_error sd_appends sd_append] in *.
  - inversion Hv; subst x; clear Hv.
    set (d1 := data ++ le_bytes 4 (w32 (N.of_nat (length v))) ++ v) in *.
    destruct (sd_appends_prefix vs d1) as [t Ht].
    destruct (sd_appends d1 vs) as [is_ d2]. cbn [fst snd nth_error] in *.
    inversion Hi; subst i; clear Hi. subst d2. unfold d1 in *.
    assert (E: w32 (N.of_nat (length v)) = N.of_nat (length v)) by (apply N.mod_small; auto).
    rewrite E in *. rewrite <- app_assoc in *. apply sd_lookup_at; auto.
  - specialize (IH (data ++ le_bytes 4 (w32 (N.of_nat (length x))) ++ x) k v i Hv Hlt).
    destruct (sd_appends (data ++ le_bytes 4 (w32 (N.of_nat (length x))) ++ x) vs) as [is_ d2].
    cbn [fst snd nth_error] in *. auto.
Qed.

Lemma sd_appends_length : forall vs data, length (fst (sd_appends data vs)) = length vs.
Proof.
  induction vs as [|v vs IH]; intros data; cbn [sd_appends sd_append]; auto.
  specialize (IH (data ++ le_bytes 4 (w32 (N.of_nat (length v))) ++ v)).
  destruct (sd_appends (data ++ le_bytes 4 (w32 (N.of_nat (length v))) ++ v) vs).
  cbn [fst length] in *. auto.
Qed.

(** A look-up with any index that leaves room for the length field is safe. *)
Lemma sd_lookup_safe : forall data index,
  bytes_ok data -> N.of_nat (length data) < 2 ^ 63 -> index < 2 ^ 64 - 4 ->
  sd_lookup data index <> UB.
Proof.
  intros data index Hok Hd Hi. unfold sd_lookup.
  assert (E63: 2 ^ 64 = 2 * 2 ^ 63) by reflexivity.
  assert (E32: 2 ^ 63 = 2147483648 * 2 ^ 32) by reflexivity.
  unfold w64 at 1. rewrite N.mod_small by lia.
  destruct (N.ltb_spec (N.of_nat (length data)) (index + 4)); [discriminate|].
  unfold rd_block at 1. rewrite (proj2 (N.leb_le _ _)) by lia. cbv zeta.
  set (lb := slice (N.to_nat index) (N.to_nat 4) data).
  assert (Hlen: le_num lb < 2 ^ 32).
  { apply (le_num_lt_pow lb 4).
    - apply bytes_ok_slice; auto.
    - unfold lb. rewrite slice_length; lia. }
  unfold w64. rewrite !N.mod_small by lia.
  destruct (N.leb_spec (index + 4 + le_num lb) (N.of_nat (length data))); [|discriminate].
  unfold rd_block. rewrite (proj2 (N.leb_le _ _)) by lia. discriminate.
Qed.

(* ------------------------------------------------------------------ *)
(** ** Fixed-size byte arrays and texts *)

Lemma fill_eq : forall c buf src,
  ch_byte c + ch_bits c / 8 <= N.of_nat (length buf) ->
  N.of_nat (length src) <= ch_bits c / 8 ->
  fill c buf src =
  Ok (splice (N.to_nat (ch_byte c)) (pad (N.to_nat (ch_bits c / 8)) src) buf).
Proof.
  intros c buf src Hfit Hs. unfold fill. cbv zeta.
  set (n := ch_bits c / 8) in *. clearbody n.
  unfold wr. rewrite repeat_length, N2Nat.id. rewrite (proj2 (N.leb_le _ _)) by lia.
  rewrite splice_length by (rewrite repeat_length; lia).
  rewrite (proj2 (N.leb_le _ _)) by lia. cbn [lift]. f_equal.
  set (o := N.to_nat (ch_byte c)). assert (Ho: (o + N.to_nat n <= length buf)%nat) by (unfold o; lia).
  clearbody o. set (m := N.to_nat n) in *. assert (Hm: (length src <= m)%nat) by (unfold m; lia).
  clearbody m.
  assert (Hp: length (pad m src) = m).
  { unfold pad. rewrite firstn_length, app_length, repeat_length. lia. }
  apply list_eq_nth.
  - rewrite !splice_length; rewrite ?splice_length; rewrite ?repeat_length, ?Hp; lia.
  - intros i Hi. rewrite !splice_length in Hi; rewrite ?splice_length; rewrite ?repeat_length; try lia.
    assert (i < o \/ o + m <= i \/ o <= i < o + m)%nat as [H|[H|H]] by lia.
    + rewrite !nth_splice_out; rewrite ?splice_length; rewrite ?repeat_length, ?Hp; auto; lia.
    + rewrite !nth_splice_out; rewrite ?splice_length; rewrite ?repeat_length, ?Hp; auto; try lia.
    + replace i with (o + (i - o))%nat by lia.
      rewrite (nth_splice_in o (pad m src)) by (rewrite ?Hp; lia).
      unfold pad. 
      assert (En: nth (i - o) (firstn m (src ++ repeat 0 m)) 0 = nth (i - o) (src ++ repeat 0 m) 0).
      { rewrite <- (firstn_skipn m (src ++ repeat 0 m)) at 2. rewrite app_nth1; auto.
        rewrite firstn_length, app_length, repeat_length. lia. }
      rewrite En.
      destruct (Nat.lt_ge_cases (i - o) (length src)).
      * rewrite nth_splice_in; rewrite ?splice_length; rewrite ?repeat_length; try lia.
        rewrite app_nth1 by lia. reflexivity.
      * rewrite (nth_splice_out o src); rewrite ?splice_length; rewrite ?repeat_length; try lia.
        rewrite nth_splice_in; rewrite ?repeat_length; try lia.
        rewrite app_nth2 by lia. rewrite !nth_repeat. reflexivity.
Qed.

Lemma text_fit : forall c len, text_placed c len -> ch_byte c + ch_bits c / 8 <= len.
Proof. intros c len P. pose proof (tp_data _ _ P). pose proof (tp_cg _ _ P). lia. Qed.

Lemma get_fixed : forall c data rec, text_placed c (N.of_nat (length rec)) ->
  get_bytes c None data rec = Ok (slice (N.to_nat (ch_byte c)) (N.to_nat (ch_bits c / 8)) rec).
Proof.
  intros c data rec P. unfold get_bytes. rewrite (tp_type _ _ P). cbn [is_vlsd bind].
  pose proof (text_fit _ _ P) as Hf. pose proof (tp_len _ _ P) as Hl.
  assert (E: 2 ^ 28 < 2 ^ 64) by reflexivity.
  unfold w64. rewrite N.mod_small by lia. rewrite (proj2 (N.leb_le _ _)) by lia.
  unfold rd_block. rewrite (proj2 (N.leb_le _ _)) by lia. reflexivity.
Qed.

Lemma pad_length : forall n s, length (pad n s) = n.
Proof. intros. unfold pad. rewrite firstn_length, app_length, repeat_length. lia. Qed.

Lemma set_bytes_fixed_get : forall c buf s valid data,
  text_placed c (N.of_nat (length buf)) ->
  exists buf', set_bytes_fixed c buf s valid = Ok buf' /\ length buf' = length buf /\
    get_bytes c None data buf' = Ok (pad (N.to_nat (ch_bits c / 8)) s).
Proof.
  intros c buf s valid data P. unfold set_bytes_fixed. cbv zeta.
  pose proof (text_fit _ _ P) as Hf. destruct (tp_bits _ _ P) as [Hb _].
  set (n := ch_bits c / 8) in *.
  assert (Hn: 1 <= n) by (unfold n; lia).
  rewrite (proj2 (N.eqb_neq _ _)) by lia.
  set (b1 := set_valid c buf valid 0).
  assert (Hl1: length b1 = length buf) by apply set_valid_length.
  assert (G: forall src, N.of_nat (length src) <= n ->
     pad (N.to_nat n) src = pad (N.to_nat n) s ->
     exists buf', fill c b1 src = Ok buf' /\ length buf' = length buf /\
       get_bytes c None data buf' = Ok (pad (N.to_nat n) s)).
  { intros src Hs Hp. rewrite fill_eq; [|rewrite Hl1; auto|auto]. fold n. rewrite Hp.
    eexists. split; [reflexivity|].
    assert (Hl: length (splice (N.to_nat (ch_byte c)) (pad (N.to_nat n) s) b1) = length buf)
      by (rewrite splice_length; rewrite ?pad_length; lia).
    split; auto.
    rewrite get_fixed by (rewrite Hl; auto). f_equal. fold n.
    pose proof (slice_splice_same (N.to_nat (ch_byte c)) (pad (N.to_nat n) s) b1) as E.
    rewrite pad_length in E. apply E. lia. }
  destruct (N.leb_spec (N.of_nat (length s)) n).
  - apply G; auto.
  - apply G; [rewrite firstn_length; lia|]. unfold pad. clear -H.
    rewrite !firstn_app, firstn_firstn, Nat.min_id, !firstn_length.
    replace (N.to_nat n - Nat.min (N.to_nat n) (length s))%nat with 0%nat by lia.
    replace (N.to_nat n - length s)%nat with 0%nat by lia. reflexivity.
Qed.

Lemma until_nul_pad : forall s n, ~ In 0 s -> (length s < n)%nat -> until_nul (pad n s) = s.
Proof.
  intros s n. revert s. induction n as [|n IH]; intros s Hz Hl; [lia|].
  unfold pad in *. destruct s as [|x s].
  - cbn [app repeat firstn until_nul]. rewrite N.eqb_refl. reflexivity.
  - cbn [app firstn until_nul].
    rewrite (proj2 (N.eqb_neq x 0)) by (intro; subst; apply Hz; left; auto). f_equal.
    rewrite <- (IH s) at 2; [|intro; apply Hz; right; auto | cbn [length] in Hl; lia].
    f_equal. cbn [length] in Hl. rewrite !firstn_app. f_equal.
    assert (R: forall a b, (a <= b)%nat -> firstn a (repeat 0 b) = repeat 0 a).
    { clear. induction a; intros [|b] H; auto; try lia. cbn [repeat firstn]. f_equal. apply IHa. lia. }
    change (0 :: repeat 0 n) with (repeat 0 (S n)). rewrite !R by lia. reflexivity.
Qed.

Lemma until_nul_no : forall s, ~ In 0 s -> forall n, (length s <= n)%nat -> until_nul (pad n s) = s.
Proof.
  intros s Hz n Hl. destruct (Nat.eq_dec (length s) n) as [<-|Hn]; [|apply until_nul_pad; auto; lia].
  unfold pad. rewrite firstn_app, Nat.sub_diag, firstn_O, app_nil_r, firstn_all.
  clear Hl. induction s as [|x s IH]; auto. cbn [until_nul].
  rewrite (proj2 (N.eqb_neq x 0)) by (intro; subst; apply Hz; left; auto).
  f_equal. apply IH. intro; apply Hz; right; auto.
Qed.

(** A text of fewer bytes than the channel is read back unchanged, a longer one cut to
    one byte less than the channel. *)
Lemma set_text_fixed_get : forall c buf s valid data,
  text_placed c (N.of_nat (length buf)) -> ~ In 0 s ->
  exists buf', set_text_fixed c buf s valid = Ok buf' /\ length buf' = length buf /\
    get_text_utf8 c data buf' = Ok (firstn (N.to_nat (ch_bits c / 8) - 1) s).
Proof.
  intros c buf s valid data P Hz. unfold set_text_fixed. cbv zeta.
  pose proof (text_fit _ _ P) as Hf. destruct (tp_bits _ _ P) as [Hb _].
  set (n := ch_bits c / 8) in *.
  assert (Hn: 1 <= n) by (unfold n; lia).
  rewrite (proj2 (N.eqb_neq _ _)) by lia.
  set (b1 := set_valid c buf valid 0).
  assert (Hl1: length b1 = length buf) by apply set_valid_length.
  assert (G: forall src, N.of_nat (length src) < n -> ~ In 0 src ->
     exists buf', fill c b1 src = Ok buf' /\ length buf' = length buf /\
       get_text_utf8 c data buf' = Ok src).
  { intros src Hs Hz'. rewrite fill_eq; [|rewrite Hl1; auto|fold n; lia]. fold n.
    eexists. split; [reflexivity|].
    assert (Hl: length (splice (N.to_nat (ch_byte c)) (pad (N.to_nat n) src) b1) = length buf)
      by (rewrite splice_length; rewrite ?pad_length; lia).
    split; auto. unfold get_text_utf8.
    rewrite get_fixed by (rewrite Hl; auto). cbn [bind]. f_equal. fold n.
    pose proof (slice_splice_same (N.to_nat (ch_byte c)) (pad (N.to_nat n) src) b1) as E.
    rewrite pad_length in E. rewrite E by lia. apply until_nul_no; auto. lia. }
  destruct (N.ltb_spec (N.of_nat (length s)) n).
  - replace (firstn (N.to_nat n - 1) s) with s by (rewrite firstn_all2; auto; lia). apply G; auto.
  - replace (N.to_nat (n - 1)) with (N.to_nat n - 1)%nat by lia.
    apply G; [rewrite firstn_length; lia|]. intro Hin. apply Hz.
    rewrite <- (firstn_skipn (N.to_nat n - 1) s). apply in_or_app. auto.
Qed.

(* ------------------------------------------------------------------ *)
(** ** Variable-length values through the record index *)

(** The same place as an unsigned channel. *)
Definition index_chan (c : chan) : chan :=
  mkChan FixedLength UnsignedLe (ch_byte c) (ch_bit c) (ch_bits c) (ch_array c) (ch_invalid c)
         (ch_inval_pos c) (ch_cg_bytes c) (ch_vlsd_id c).

Lemma index_placed : forall c len, vlsd_placed c len -> placed (index_chan c) len.
Proof.
  intros c len P. destruct P. constructor; unfold index_chan;
    cbn [ch_type ch_dtype ch_byte ch_bit ch_bits ch_array ch_invalid ch_inval_pos ch_cg_bytes
         is_vlsd]; auto.
  - unfold num_size. cbn [ch_dtype ch_bits]. auto.
  - unfold data_bytes, elems. cbn [ch_bits ch_array]. rewrite vp_bits, N.max_l by lia.
    change (64 / 8 + (if 0 <? 64 mod 8 then 1 else 0)) with 8. lia.
  - unfold elems. cbn [ch_array]. intros H. specialize (vp_inv H). lia.
Qed.

Lemma vlsd_set_get : forall c st payload valid,
  vlsd_placed c (N.of_nat (length (sd_buf st))) -> bytes_ok (sd_buf st) ->
  N.of_nat (length payload) < 2 ^ 32 ->
  N.of_nat (length (sd_data st) + 4 + length payload) < 2 ^ 64 ->
  exists st', set_bytes_vlsd c st payload valid = Ok st' /\
    length (sd_buf st') = length (sd_buf st) /\ bytes_ok (sd_buf st') /\
    sd_data st' = sd_data st ++ le_bytes 4 (N.of_nat (length payload)) ++ payload /\
    get_bytes c None (sd_data st') (sd_buf st') = Ok payload.
Proof.
  intros c st payload valid P Hok Hp Hd.
  unfold set_bytes_vlsd. unfold sd_append. rewrite (vp_bits _ _ P). cbn [N.eqb Pos.eqb].
  set (b1 := set_valid c (sd_buf st) valid 0).
  assert (Hl1: length b1 = length (sd_buf st)) by apply set_valid_length.
  assert (Hok1: bytes_ok b1) by (apply set_valid_ok; auto).
  set (index := N.of_nat (length (sd_data st))).
  pose proof (index_placed _ _ P) as Q.
  assert (Hidx: 0 < elems (index_chan c)) by (unfold elems; lia).
  assert (Q1: placed (index_chan c) (N.of_nat (length b1))) by (rewrite Hl1; auto).
  assert (Hset: set_unsigned_le c b1 index true 0 =
                set_channel (fun x => x) (index_chan c) b1 (VU index) true 0) by reflexivity.
  rewrite Hset. clear Hset.
  rewrite (set_channel_eq (fun x => x) (fun x => x) (fun x => x) (index_chan c) b1 (VU index) index true 0
             Q1 Hidx eq_refl).
  cbn [bind]. eexists. split; [reflexivity|]. cbn [sd_buf sd_data].
  set (b2 := splice (elem_off (index_chan c) 0)
               (enc (is_le (index_chan c)) (elem_size (index_chan c)) index)
               (set_valid (index_chan c) b1 true 0)).
  destruct (placed_elem _ _ _ Q1 Hidx) as [H1 H2]. rewrite Nat2N.id in H2.
  assert (Hl2: length b2 = length (sd_buf st)).
  { unfold b2. rewrite splice_length; rewrite ?enc_length, ?set_valid_length; auto. lia. }
  assert (Hok2: bytes_ok b2).
  { apply bytes_ok_splice; [apply enc_ok | apply set_valid_ok; auto]. }
  assert (Ew: w32 (N.of_nat (length payload)) = N.of_nat (length payload)) by (apply N.mod_small; auto).
  rewrite Ew.
  split; [auto|split; [auto|split; [auto|]]].
  unfold get_bytes. rewrite (vp_type _ _ P), (vp_id _ _ P). cbn [is_vlsd].
  change (0 <? 0) with false. cbv iota.
  assert (Hg: get_unsigned c b2 0 = Ok index).
  { assert (Q2: placed (index_chan c) (N.of_nat (length b2))) by (rewrite Hl2; auto).
    destruct (get_field_elem (index_chan c) b2 0 Hok2 Q2 Hidx) as [Hin Hf].
    rewrite (get_unsigned_field c b2 0 true); auto.
    - cbn [is_le index_chan ch_dtype] in Hf.
      change (start_of (index_chan c) 0) with (start_of c 0) in Hf.
      change (ch_bits (index_chan c)) with (ch_bits c) in Hf. rewrite Hf.
      unfold b2. 
      pose proof (slice_splice_same (elem_off (index_chan c) 0)
               (enc (is_le (index_chan c)) (elem_size (index_chan c)) index)
               (set_valid (index_chan c) b1 true 0)) as E.
      rewrite enc_length, set_valid_length in E. rewrite E by lia.
      change true with (is_le (index_chan c)) at 1. rewrite dec_enc.
      f_equal. apply N.mod_small. unfold elem_size, data_bytes. cbn [index_chan ch_bits].
      rewrite (vp_bits _ _ P). 
      change (8 * N.of_nat (N.to_nat (64 / 8 + (if 0 <? 64 mod 8 then 1 else 0)))) with 64.
      unfold index. lia.
    - rewrite Hl2. apply (vp_len _ _ P).
    - unfold uint_le. rewrite (vp_type _ _ P). reflexivity.
    - rewrite (vp_bits _ _ P). lia. }
  rewrite Hg. cbn [bind]. unfold index.
  rewrite <- (app_nil_r (le_bytes 4 (N.of_nat (length payload)) ++ payload)).
  apply sd_lookup_at; auto.
  rewrite !app_length, le_bytes_length. cbn [length]. lia.
Qed.
