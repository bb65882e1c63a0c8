(** C91: the observer of a channel holds its values without loss, and is made for the right channel. *)
From Coq Require Import String Lia Sorted.
From Verif Require Import Base ChannelModel ChannelSpec BitProofs ChannelProofs SetProofs ChannelProps XmlModel XmlSpec XmlProofs3
  CommentModel CommentProofs2 NoteModel NoteProofs XmlProofs4 PickModel PickSpec PickProofs.
Local Open Scope N_scope.

(** The observer that the reader makes for an integer or floating-point channel, of any size, holds exactly
    what the channel itself decodes from the record: the type the reader picks loses nothing. *)
Theorem C91_value : forall half_to_double float_to_double double_to_float c rec idx,
  casts_exact half_to_double float_to_double double_to_float ->
  match ch_dtype c with
  | UnsignedLe | UnsignedBe | SignedLe | SignedBe | FloatLe | FloatBe => True
  | _ => False
  end ->
  observed half_to_double float_to_double double_to_float c rec idx
  = get_channel half_to_double float_to_double c rec idx.
Proof.
  intros h f d c rec idx H D. unfold observed.
  destruct (pick_store c) as [s|] eqn:P.
  - destruct (get_channel h f c rec idx) as [[v ok]| |] eqn:G; cbn [bind]; try reflexivity.
    rewrite (keeps _ _ _ _ _ _ _ _ _ H P G). reflexivity.
  - unfold pick_store in P. destruct (ch_dtype c); try discriminate; contradiction.
Qed.
Print Assumptions C91_value.

(** For an unsigned channel of 1 to 64 bits, in either byte order, asking its observer for a 64-bit number
    gives the number in the record's bits, and asking it for a text gives that number in decimals. *)
Theorem C91_unsigned : forall half_to_double float_to_double double_to_float c rec idx le,
  bytes_ok rec -> N.of_nat (length rec) < 2 ^ 28 -> ch_type c <> VariableLength ->
  (ch_dtype c = UnsignedLe /\ le = true) \/ (ch_dtype c = UnsignedBe /\ le = false) ->
  1 <= ch_bits c <= 64 ->
  let s := field_start (ch_byte c) (ch_bit c) (ch_bits c) idx in
  field_inside rec s (ch_bits c) ->
  casts_exact half_to_double float_to_double double_to_float ->
  exists v text, observed half_to_double float_to_double double_to_float c rec idx
                 = Ok (v, get_valid c rec idx) /\
    as_uint64 v = Some (field le rec s (ch_bits c)) /\
    as_text v = Some text /\ stoull text = Some (field le rec s (ch_bits c)) /\
    Forall (fun b => 48 <= b < 58) text.
Proof.
  intros h f d c rec idx le Hb Hl Ht Hd Hn s Hi Hc.
  pose proof (field_bound le rec s (ch_bits c)) as Hf.
  assert (F64: field le rec s (ch_bits c) < 2 ^ 64)
    by (eapply pow_mono; [|exact Hf]; lia).
  exists (VU (field le rec s (ch_bits c))), (int_text (Z.of_N (field le rec s (ch_bits c)))).
  assert (G: get_unsigned c rec idx = Ok (field le rec s (ch_bits c))).
  { destruct Hd as [[Hd ->]|[Hd ->]].
    - exact (C01_unsigned_le_read c rec idx Hb Hl Hd Hn Hi).
    - exact (C02_unsigned_be_read c rec idx Hb Hl Hd Ht Hn Hi). }
  assert (W: w64 (field le rec s (ch_bits c)) = field le rec s (ch_bits c))
    by (apply N.mod_small; exact F64).
  split; [|split; [|split; [|split]]].
  - rewrite C91_value; [|exact Hc|destruct Hd as [[-> _]|[-> _]]; exact I].
    unfold get_channel. rewrite G. destruct Hd as [[-> _]|[-> _]]; reflexivity.
  - cbn [as_uint64]. rewrite W. reflexivity.
  - cbn [as_text]. rewrite W. reflexivity.
  - exact (stoull_int _ F64).
  - unfold int_text. destruct (Z.of_N (field le rec s (ch_bits c)) <? 0)%Z eqn:E.
    + apply Z.ltb_lt in E. lia.
    + eapply Forall_impl; [|apply uint_bytes_range]. cbv beta. lia.
Qed.
Print Assumptions C91_unsigned.

(** For a signed channel of 1 to 64 bits, asking its observer for a signed 64-bit number gives the number
    whose two's complement is in the record's bits, and asking it for a text gives that number in decimals. *)
Theorem C91_signed : forall half_to_double float_to_double double_to_float c rec idx le,
  bytes_ok rec -> N.of_nat (length rec) < 2 ^ 28 ->
  (ch_dtype c = SignedLe /\ le = true) \/ (ch_dtype c = SignedBe /\ le = false) ->
  1 <= ch_bits c <= 64 ->
  let s := field_start (ch_byte c) (ch_bit c) (ch_bits c) idx in
  field_inside rec s (ch_bits c) ->
  casts_exact half_to_double float_to_double double_to_float ->
  exists v z text, observed half_to_double float_to_double double_to_float c rec idx
                   = Ok (v, get_valid c rec idx) /\
    as_int64 v = Some z /\
    (- Z.of_N (2 ^ (ch_bits c - 1)) <= z < Z.of_N (2 ^ (ch_bits c - 1)))%Z /\
    (z mod Z.of_N (2 ^ ch_bits c))%Z = Z.of_N (field le rec s (ch_bits c)) /\
    as_text v = Some text /\ stoll text = Some z.
Proof.
  intros h f d c rec idx le Hb Hl Hd Hn s Hi Hc.
  destruct (C03_signed_read c rec idx le Hb Hl Hd Hn Hi) as (z & G & R & M).
  assert (R64: (- 2 ^ 63 <= z < 2 ^ 63)%Z).
  { assert (2 ^ (ch_bits c - 1) <= 2 ^ 63) by (apply N.pow_le_mono_r; lia).
    change (2 ^ 63)%Z with (Z.of_N (2 ^ 63)). lia. }
  assert (T: twos 64 (to_u64 z) = z).
  { pose proof (keep_signed 64 64 z ltac:(lia) ltac:(lia)) as K. rewrite N.mod_small in K.
    - apply K. exact R64.
    - unfold to_u64. pose proof (Z.mod_pos_bound z (2 ^ 64) ltac:(lia)). 
      change (2 ^ 64) with (Z.to_N (2 ^ 64)). lia. }
  exists (VS z), z, (int_text z).
  split; [|split; [|split; [exact R|split; [exact M|split]]]].
  - rewrite C91_value; [|exact Hc|destruct Hd as [[-> _]|[-> _]]; exact I].
    unfold get_channel. rewrite G. destruct Hd as [[-> _]|[-> _]]; reflexivity.
  - cbn [as_int64]. rewrite T. reflexivity.
  - cbn [as_text]. rewrite T. reflexivity.
  - exact (stoll_int z R64).
Qed.
Print Assumptions C91_signed.

(** An unsigned number below 2^63 asked for as signed, and a signed number that is not negative asked for as
    unsigned, are the same number; a negative one is its two's complement of 64 bits. *)
Theorem C91_other_sign :
  (forall u, u < 2 ^ 63 -> as_int64 (VU u) = Some (Z.of_N u)) /\
  (forall z, (0 <= z < 2 ^ 63)%Z -> as_uint64 (VS z) = Some (Z.to_N z)) /\
  (forall z, (- 2 ^ 63 <= z < 0)%Z -> as_uint64 (VS z) = Some (Z.to_N (2 ^ 64 + z))).
Proof.
  split; [|split].
  - intros u H. cbn [as_int64]. unfold w64. rewrite N.mod_small by (eapply N.lt_trans; [exact H|reflexivity]).
    unfold twos. change (64 - 1) with 63. destruct (N.ltb_spec u (2 ^ 63)); [reflexivity|lia].
  - intros z H. cbn [as_uint64]. unfold to_u64. rewrite Z.mod_small by lia. reflexivity.
  - intros z H. cbn [as_uint64]. unfold to_u64. replace (2 ^ 64 + z)%Z with (z mod 2 ^ 64)%Z; [reflexivity|].
    symmetry. apply (Z.mod_unique_pos z (2 ^ 64) (-1)); lia.
Qed.
Print Assumptions C91_other_sign.

(** Asked for a name, the reader observes a channel that has this name, in a group that has at least as many
    samples as any other group with such a channel; among several, the last one. *)
Theorem C91_named : forall gs name g i, pick_named gs name = Some (g, i) ->
  exists samples, named gs name g i samples /\
    (forall g' i' samples', named gs name g' i' samples' -> samples' <= samples) /\
    (forall g' i', named gs name g' i' samples -> (g', i') = (g, i) \/ before (g', i') (g, i)).
Proof.
  intros gs name g i P. unfold pick_named in P. pose proof (search_sound gs name) as S.
  unfold sound in S. rewrite P in S. destruct S as (_ & Nq & S).
  eexists. split; [exact Nq|]. split.
  - intros g' i' k H. exact (proj1 (S (g', i') k (named_before _ _ _ _ _ H) H)).
  - intros g' i' H. exact (proj2 (S (g', i') _ (named_before _ _ _ _ _ H) H) eq_refl).
Qed.
Print Assumptions C91_named.

(** It observes none exactly when no channel of the data group has the name. *)
Theorem C91_none : forall gs name,
  pick_named gs name = None <-> forall g i samples, ~ named gs name g i samples.
Proof.
  intros gs name. unfold pick_named. pose proof (search_sound gs name) as S. unfold sound in S.
  destruct (snd (search_groups name 0 gs (0, None))) as [[g i]|].
  - split; [discriminate|]. intros H. destruct S as (_ & Nq & _). exfalso. exact (H _ _ _ Nq).
  - destruct S as [_ S]. split; [|reflexivity]. intros _ g i k H.
    exact (S (g, i) k (named_before _ _ _ _ _ H) H).
Qed.
Print Assumptions C91_none.

(** The list made for a data group has one entry for each channel of each group that has samples, in the
    order of the file, and no other. *)
Theorem C91_list : forall gs,
  (forall g i, In (g, i) (data_group_list 0 gs) <->
     exists x, nth_error gs g = Some x /\ g_samples x <> 0 /\ (i < length (g_names x))%nat) /\
  StronglySorted before (data_group_list 0 gs).
Proof.
  intros gs. split; [|apply list_sorted]. intros g i. rewrite in_list. rewrite Nat.sub_0_r.
  split; [intros [_ H]; exact H|]. intros H. split; [lia|exact H].
Qed.
Print Assumptions C91_list.

(** A place does not come before itself, so no channel is in that list twice. *)
Theorem C91_once : forall gs, NoDup (data_group_list 0 gs).
Proof.
  intros gs. pose proof (list_sorted gs 0) as S.
  induction (data_group_list 0 gs) as [|p l IH]; constructor; apply StronglySorted_inv in S.
  - intros J. destruct S as [_ S]. rewrite Forall_forall in S. specialize (S p J).
    destruct S as [H|[_ H]]; lia.
  - apply IH. exact (proj1 S).
Qed.
Print Assumptions C91_once.

(** A channel of three bytes is observed in 64 bits, an 11-bit signed one in 16; the channel "Speed" is taken
    from the last group with the most samples, also when asked for in capitals. *)
Example C91_witness :
  let u := mkChan FixedLength UnsignedLe 1 3 20 1 false 0 4 0 in
  let z := mkChan FixedLength SignedBe 0 0 11 1 false 0 4 0 in
  let gs := [mkGroup 10 [lit "t"%string; lit "Speed"%string]; mkGroup 0 [lit "speed"%string];
             mkGroup 10 [lit "SPEED"%string; lit "sPeed"%string; lit "x"%string]] in
  pick_store u = Some (KeepU 64) /\ pick_store z = Some (KeepS 16) /\
  observed id id id u [1; 255; 254; 127] 0 = Ok (VU 1048543, true) /\
  observed id id id z [255; 254; 0; 0] 0 = get_channel id id z [255; 254; 0; 0] 0 /\
  casts_exact id id id /\
  pick_named gs (lit "SPeed"%string) = Some (2%nat, 1%nat) /\ pick_named gs (lit "y"%string) = None /\
  data_group_list 0 gs = [(0, 0); (0, 1); (2, 0); (2, 1); (2, 2)]%nat.
Proof.
  repeat split; try (vm_compute; reflexivity).
Qed.

(** FINDING. Every channel of the list has an observer: false. For a channel of complex numbers the reader
    makes none and puts a null pointer in the list, which the user meets when they go through it
    (mdfreader.cpp:176-179, 221, 241). *)
Theorem C91_every_channel_refuted :
  exists c, ch_dtype c = ComplexLe /\ ch_bits c = 128 /\ pick_store c = None.
Proof. exists (mkChan FixedLength ComplexLe 0 0 128 1 false 0 16 0). repeat split. Qed.
Print Assumptions C91_every_channel_refuted.
