(** The bytes of the channels of a sample buffer after a history of calls. *)
From Verif Require Import Base BlockModel StreamModel QueueModel ObsModel ChannelModel ChannelSpec BitProofs ChannelProofs SetProofs HistProofs VlsdProofs
  TextModel TimeModel MetaModel MeasModel ValueModel ValueSpec ValueProofs ValueProofs6 StrModel StrSpec.
Local Open Scope N_scope.
Local Open Scope list_scope.

(* ------------------------------------------------------------------ *)
(** ** One write *)

(** The place of a channel in records of [len] bytes, whatever its kind. *)
Record inside (c : chan) (len : N) : Prop := {
  in_data : ch_byte c + data_bytes c * elems c <= ch_cg_bytes c;
  in_cg : ch_cg_bytes c <= len;
  in_inv : ch_invalid c = true -> 8 * ch_cg_bytes c + ch_inval_pos c + elems c <= 8 * len;
  in_len : len < 2 ^ 28
}.
Lemma inside_elem : forall c len idx, inside c len -> idx < elems c ->
  (elem_off c idx + elem_size c <= N.to_nat (ch_cg_bytes c))%nat /\ (N.to_nat (ch_cg_bytes c) <= N.to_nat len)%nat.
Proof.
  intros c len idx P Hi. destruct P. unfold elem_off, elem_size.
  assert (data_bytes c * idx + data_bytes c <= data_bytes c * elems c).
  { replace (data_bytes c * idx + data_bytes c) with (data_bytes c * (idx + 1)) by lia.
    apply N.mul_le_mono_l. lia. }
  lia.
Qed.
Lemma inside_inv : forall c len idx, inside c len -> idx < elems c -> ch_invalid c = true -> inv_bit c idx < 8 * len.
Proof. intros c len idx P Hi He. pose proof (in_inv _ _ P He). unfold inv_bit. lia. Qed.
Lemma placed_inside : forall c len, placed c len -> inside c len.
Proof. intros c len P. destruct P. constructor; auto. Qed.

Definition put_cell (c : chan) (idx : N) (w : list N) (valid : bool) (buf : list N) : list N :=
  splice (elem_off c idx) w (set_valid c buf valid idx).
Definition cell (c : chan) (idx : N) (buf : list N) : list N * bool := (slice (elem_off c idx) (elem_size c) buf, get_valid c buf idx).

Lemma put_facts : forall c idx w valid buf, inside c (N.of_nat (length buf)) -> idx < elems c -> length w = elem_size c ->
  bytes_ok w -> bytes_ok buf ->
  length (put_cell c idx w valid buf) = length buf /\ bytes_ok (put_cell c idx w valid buf) /\
  cell c idx (put_cell c idx w valid buf) = (w, if ch_invalid c then valid else true).
Proof.
  intros c idx w valid buf P Hi LW BW BB. destruct (inside_elem _ _ _ P Hi) as [H1 H2]. rewrite Nat2N.id in H2.
  pose proof (set_valid_length c buf valid idx) as LV. unfold put_cell, cell.
  assert (L2 : length (splice (elem_off c idx) w (set_valid c buf valid idx)) = length buf) by (rewrite splice_length; lia).
  split; [exact L2|]. split; [apply bytes_ok_splice; [exact BW|apply set_valid_ok; exact BB]|]. f_equal.
  - rewrite <- LW. apply slice_splice_same. lia.
  - destruct (ch_invalid c) eqn:Ei; [|unfold get_valid; rewrite Ei; reflexivity].
    pose proof (inside_inv _ _ _ P Hi Ei) as Hiv.
    rewrite get_valid_eq; auto; try (rewrite L2; auto). 2: apply (in_len _ _ P).
    assert (Hge: ch_cg_bytes c <= inv_bit c idx / 8) by (unfold inv_bit; clear; lia).
    rewrite nth_splice_out by lia.
    fold (buf_bit (set_valid c buf valid idx) (inv_bit c idx)).
    rewrite set_valid_bits; auto; [|apply (in_len _ _ P)].
    rewrite N.eqb_refl. apply negb_involutive.
Qed.

Lemma put_frame : forall c1 i1 c2 i2 w valid buf, inside c1 (N.of_nat (length buf)) -> inside c2 (N.of_nat (length buf)) ->
  i1 < elems c1 -> i2 < elems c2 -> elem_disjoint c1 i1 c2 i2 -> length w = elem_size c1 ->
  cell c2 i2 (put_cell c1 i1 w valid buf) = cell c2 i2 buf.
Proof.
  intros c1 i1 c2 i2 w valid buf P1 P2 Hi1 Hi2 (Hd & Hv & Hcg) LW.
  destruct (inside_elem _ _ _ P1 Hi1) as [A1 A2]. rewrite Nat2N.id in A2.
  destruct (inside_elem _ _ _ P2 Hi2) as [B1 B2]. rewrite Nat2N.id in B2.
  pose proof (set_valid_length c1 buf valid i1) as Hlv.
  pose proof (in_len _ _ P1) as Hlen. unfold cell, put_cell. f_equal.
  - rewrite slice_splice_out; try lia. apply set_valid_data; auto; try lia. intros. apply inside_inv; auto.
  - destruct (ch_invalid c2) eqn:E2; [|unfold get_valid; rewrite E2; reflexivity].
    pose proof (inside_inv _ _ _ P2 Hi2 E2) as Hiv2.
    assert (Hge: ch_cg_bytes c2 <= inv_bit c2 i2 / 8) by (unfold inv_bit; clear; lia).
    rewrite !get_valid_eq; auto; try (rewrite splice_length, Hlv; auto; lia).
    f_equal. rewrite nth_splice_out; try lia.
    fold (buf_bit (set_valid c1 buf valid i1) (inv_bit c2 i2)). fold (buf_bit buf (inv_bit c2 i2)).
    destruct (ch_invalid c1) eqn:E1.
    + rewrite set_valid_bits; auto.
      * destruct (N.eqb_spec (inv_bit c2 i2) (inv_bit c1 i1)) as [E|E]; auto. exfalso. apply Hv; auto.
      * apply inside_inv; auto.
    + unfold set_valid. rewrite E1. reflexivity.
Qed.

Lemma same_cell_disjoint : forall c i j, 1 <= data_bytes c \/ True -> i <> j -> elem_disjoint c i c j.
Proof.
  intros c i j _ Hn. unfold elem_disjoint, elem_off, elem_size, inv_bit. split; [|split; [intros; lia|reflexivity]].
  assert (i < j \/ j < i) as [L|L] by lia.
  - left. assert (data_bytes c * (i + 1) <= data_bytes c * j) by (apply N.mul_le_mono_l; lia). lia.
  - right. assert (data_bytes c * (j + 1) <= data_bytes c * i) by (apply N.mul_le_mono_l; lia). lia.
Qed.

(** Every channel of a prepared group has a place. *)
Lemma placed_chan_inside : forall l k c, nth_error l k = Some c -> record_bytes l < 2 ^ 28 -> inside (placed_chan l k c) (record_bytes l).
Proof.
  intros l k c Hk H.
  destruct (placed_chan_fields l k c Hk H) as (F1 & F2 & F3 & F4 & F5 & F6).
  pose proof (sum_of_firstn space_of _ _ _ Hk) as S1.
  pose proof (sum_of_firstn invals_of _ _ _ Hk) as S2.
  constructor; auto.
  - rewrite F1, F2, F6. auto.
  - rewrite F6. unfold record_bytes. lia.
  - intros Hi. destruct (F5 Hi) as [G1 G2]. rewrite F6, G1, G2. unfold record_bytes.
    set (x := sum_of invals_of l) in *. clearbody x. clear -S2. lia.
Qed.

(* ------------------------------------------------------------------ *)
(** ** Channels of characters and dates *)

Lemma chars_placed : forall l k c, nth_error l k = Some c -> record_bytes l < 2 ^ 28 -> chars c \/ dates c ->
  let p := placed_chan l k c in
  text_placed p (record_bytes l) /\ elem_size p = size_in p /\ elems p = 1 /\ elem_off p 0 = N.to_nat (ch_byte p) /\
  ch_dtype p = ch_dtype c /\ ch_invalid p = ch_invalid c /\ (chars c -> ch_bits p = ch_bits c) /\
  (ch_dtype c = CanOpenDate -> ch_bits p = 56) /\ (ch_dtype c = CanOpenTime -> ch_bits p = 48).
Proof.
  intros l k c Hk H K p.
  assert (B : ch_type p = FixedLength /\ ch_dtype p = ch_dtype c /\ ch_invalid p = ch_invalid c /\ ch_array p = ch_array c /\
     (8 <= ch_bits p /\ ch_bits p mod 8 = 0) /\ (chars c -> ch_bits p = ch_bits c) /\
     (ch_dtype c = CanOpenDate -> ch_bits p = 56) /\ (ch_dtype c = CanOpenTime -> ch_bits p = 48)).
  { unfold p, placed_chan, prepare_channel, prepare_bits. cbv zeta. destruct K as [(T & D & A & B1 & B2)|(T & D & A)]; rewrite T.
    - destruct (ch_dtype c) eqn:Ed; cbn [is_chars] in D; try destruct D; rewrite (proj2 (N.eqb_neq _ _)) by lia;
        cbn [ch_type ch_dtype ch_invalid ch_bits ch_array]; (repeat split; auto; discriminate).
    - destruct D as [D|D]; rewrite D; cbn [ch_type ch_dtype ch_invalid ch_bits ch_array]; (split; [reflexivity|]); (split; [reflexivity|]);
        (split; [reflexivity|]); (split; [reflexivity|]); (split; [split; [discriminate|reflexivity]|]);
        (split; [intros (_ & X & _); rewrite D in X; destruct X|split; [intros X; auto|intros X; auto]; discriminate X]). }
  destruct B as (B1 & B2 & B3 & B4 & B5 & B6 & B7 & B8).
  assert (EL : elems p = 1).
  { unfold elems. rewrite B4. assert (A : ch_array c <= 1) by (destruct K as [(_ & _ & A & _)|(_ & _ & A)]; exact A). clear - A. lia. }
  assert (DB : data_bytes p = ch_bits p / 8).
  { unfold data_bytes. destruct B5 as [_ ->]. cbn [N.ltb N.compare]. lia. }
  pose proof (placed_chan_inside l k c Hk H) as I. fold p in I. destruct I as [I1 I2 I3 I4].
  split; [constructor; auto|].
  - rewrite EL, DB in I1. lia.
  - intros X. specialize (I3 X). lia.
  - split; [unfold elem_size, size_in; rewrite DB; reflexivity|]. split; [exact EL|].
    split; [unfold elem_off; rewrite N.mul_0_r, N.add_0_r; reflexivity|]. auto 10.
Qed.

Lemma set_bytes_cell : forall c buf s valid, text_placed c (N.of_nat (length buf)) -> elem_off c 0 = N.to_nat (ch_byte c) ->
  set_bytes_fixed c buf s valid = Ok (put_cell c 0 (pad (size_in c) s) valid buf).
Proof.
  intros c buf s valid P EO. unfold set_bytes_fixed, size_in. cbv zeta.
  pose proof (text_fit _ _ P) as Hf. destruct (tp_bits _ _ P) as [Hb _].
  set (n := ch_bits c / 8) in *. assert (Hn: 1 <= n) by (unfold n; lia).
  rewrite (proj2 (N.eqb_neq _ _)) by lia.
  pose proof (set_valid_length c buf valid 0) as LV. unfold put_cell. rewrite EO.
  destruct (N.leb_spec (N.of_nat (length s)) n).
  - rewrite fill_eq; [reflexivity|rewrite LV; exact Hf|fold n; lia].
  - rewrite fill_eq; [|rewrite LV; exact Hf|fold n; rewrite firstn_length; lia]. fold n. f_equal. f_equal. unfold pad. clear -H.
    rewrite !firstn_app, firstn_firstn, Nat.min_id, !firstn_length.
    replace (N.to_nat n - Nat.min (N.to_nat n) (length s))%nat with 0%nat by lia.
    replace (N.to_nat n - length s)%nat with 0%nat by lia. reflexivity.
Qed.
Lemma set_text_cell : forall c buf s valid, text_placed c (N.of_nat (length buf)) -> elem_off c 0 = N.to_nat (ch_byte c) ->
  set_text_fixed c buf s valid = Ok (put_cell c 0 (pad (size_in c) (firstn (size_in c - 1) s)) valid buf).
Proof.
  intros c buf s valid P EO. unfold set_text_fixed, size_in. cbv zeta.
  pose proof (text_fit _ _ P) as Hf. destruct (tp_bits _ _ P) as [Hb _].
  set (n := ch_bits c / 8) in *. assert (Hn: 1 <= n) by (unfold n; lia).
  rewrite (proj2 (N.eqb_neq _ _)) by lia.
  pose proof (set_valid_length c buf valid 0) as LV. unfold put_cell. rewrite EO.
  destruct (N.ltb_spec (N.of_nat (length s)) n).
  - rewrite fill_eq; [|rewrite LV; exact Hf|fold n; lia]. fold n. rewrite firstn_all2 by lia. reflexivity.
  - rewrite fill_eq; [|rewrite LV; exact Hf|fold n; rewrite firstn_length; lia]. fold n.
    replace (N.to_nat (n - 1)) with (N.to_nat n - 1)%nat by lia. reflexivity.
Qed.
Lemma pad_ok : forall n s, bytes_ok s -> bytes_ok (pad n s).
Proof.
  intros n s B. unfold pad. apply Forall_forall. intros x I. assert (In x (s ++ repeat 0 n)).
  { rewrite <- (firstn_skipn n (s ++ repeat 0 n)). apply in_or_app. auto. }
  apply in_app_or in H. destruct H as [H|H].
  - unfold bytes_ok in B. rewrite Forall_forall in B. auto.
  - apply repeat_spec in H. subst. reflexivity.
Qed.
Lemma pad_same : forall n s, length s = n -> pad n s = s.
Proof. intros n s <-. unfold pad. rewrite firstn_app, Nat.sub_diag, firstn_O, app_nil_r. apply firstn_all. Qed.

Lemma date_shape : forall z ns, bytes_ok (canopen_date z ns) /\ length (canopen_date z ns) = 7%nat /\
  bytes_ok (canopen_time z ns) /\ length (canopen_time z ns) = 6%nat.
Proof.
  intros z ns.
  assert (LO : forall a b, a < 256 -> b < 256 -> N.lor a b < 256).
  { intros a b A B. change 256 with (2 ^ 8) in *.
    destruct (N.eq_dec (N.lor a b) 0) as [E|E]; [rewrite E; reflexivity|].
    apply N.log2_lt_pow2; [lia|]. rewrite N.log2_lor.
    destruct (N.eq_dec a 0) as [->|Na]; destruct (N.eq_dec b 0) as [->|Nb]; cbn [N.log2];
      repeat rewrite ?N.max_0_l, ?N.max_0_r; try reflexivity; try (apply N.log2_lt_pow2; lia).
    apply N.max_lub_lt; apply N.log2_lt_pow2; lia. }
  assert (BO : forall x, byte_of x < 256) by (intros x; unfold byte_of; lia).
  unfold canopen_date, canopen_time. cbv zeta. split; [|split; [|split]].
  - apply Forall_app. split; [apply le_bytes_ok|].
    repeat (constructor; [unfold byte_ok; try apply LO; try apply BO; try (destruct (_ =? _)%Z; reflexivity); try (unfold w8; lia)|]). constructor.
  - rewrite app_length, le_bytes_length. reflexivity.
  - apply Forall_app; split; apply le_bytes_ok.
  - rewrite app_length, !le_bytes_length. reflexivity.
Qed.
