(** C51, C63-C66: array shapes, and the description of a measurement survives the file. *)
From Verif Require Import Base BlockModel BlockSpec BlockProofs ConvModel ConvSpec ConvProofs3 CcModel ChannelModel
  MetaModel MetaSpec MetaProofs MetaCc MetaProofs2 MetaProofs3 MetaProofs4.
Local Open Scope N_scope.

(* ------------------------------------------------------------------ *)
(** ** C51 *)

(** The number of values is the product of the sizes. *)
Theorem C51_count : forall a, Forall (fun d => 0 < d) (a_dims a) -> elements (a_dims a) < 2 ^ 64 ->
  nof_array_values a = elements (a_dims a).
Proof. intros a F B. apply product_elements; auto. Qed.
Print Assumptions C51_count.

(** A channel with several arrays has the product of their numbers of values. *)
Theorem C51_channel_count : forall arrays,
  Forall (fun a => Forall (fun d => 0 < d) (a_dims a)) arrays ->
  fold_right (fun a n => elements (a_dims a) * n) 1 arrays < 2 ^ 64 ->
  array_size arrays = fold_right (fun a n => elements (a_dims a) * n) 1 arrays.
Proof.
  intros arrays F B. unfold array_size. rewrite array_size_fold; auto; try lia; try reflexivity.
Qed.
Print Assumptions C51_channel_count.

(** Index tuples and value indices below the number of values correspond one to one. *)
Theorem C51_bijection : forall a, Forall (fun d => 0 < d) (a_dims a) -> elements (a_dims a) < 2 ^ 64 ->
  (forall idx, in_shape (a_dims a) idx -> row_major (a_dims a) idx < nof_array_values a) /\
  (forall i j, in_shape (a_dims a) i -> in_shape (a_dims a) j ->
     row_major (a_dims a) i = row_major (a_dims a) j -> i = j) /\
  (forall k, k < nof_array_values a -> exists idx, in_shape (a_dims a) idx /\ row_major (a_dims a) idx = k).
Proof.
  intros a F B. rewrite (C51_count a F B). split; [apply row_major_lt|]. split; [apply row_major_inj|].
  apply row_major_onto.
Qed.
Print Assumptions C51_bijection.

(** Different elements are read from different bits of the record, inside the space of the array. *)
Theorem C51_places : forall (c : chan) (dims : list N),
  let start := ch_byte c * 8 + ch_bit c in
  start < 2 ^ 32 -> start + elements dims * ch_bits c < 2 ^ 64 ->
  (forall i, in_shape dims i ->
     start <= bit_offset c (row_major dims i) /\
     bit_offset c (row_major dims i) + ch_bits c <= start + elements dims * ch_bits c) /\
  (forall i j, in_shape dims i -> in_shape dims j -> i <> j ->
     bit_offset c (row_major dims i) + ch_bits c <= bit_offset c (row_major dims j) \/
     bit_offset c (row_major dims j) + ch_bits c <= bit_offset c (row_major dims i)).
Proof.
  intros c dims start S B.
  assert (L : forall i, in_shape dims i ->
            bit_offset c (row_major dims i) = start + row_major dims i * ch_bits c).
  { intros i Hi. pose proof (row_major_lt _ _ Hi). apply bit_offset_linear; [exact S|]. fold start. nia. }
  split.
  - intros i Hi. rewrite (L i Hi). pose proof (row_major_lt _ _ Hi). nia.
  - intros i j Hi Hj NE. rewrite (L i Hi), (L j Hj).
    assert (X : row_major dims i <> row_major dims j) by (intros E; apply NE; eapply row_major_inj; eauto).
    assert (Y : row_major dims i + 1 <= row_major dims j \/ row_major dims j + 1 <= row_major dims i) by lia.
    destruct Y; [left|right]; nia.
Qed.
Print Assumptions C51_places.

Definition shape_arr (dims : list N) : ca :=
  mkCa 0 0 0 0 0 dims [] [] [] (0, 0, 0) (0, 0, 0) [] [] [] [].

Example C51_witness :
  Forall (fun d => 0 < d) [4; 3; 2] /\ elements [4; 3; 2] = 24 /\ nof_array_values (shape_arr [4; 3; 2]) = 24 /\
  in_shape [4; 3; 2] [3; 1; 1] /\ row_major [4; 3; 2] [3; 1; 1] = 21 /\
  array_size [shape_arr [4; 3]; shape_arr [5]] = 60 /\
  let c := mkChan FixedLength UnsignedLe 2 4 12 24 false 0 40 0 in
  ch_byte c * 8 + ch_bit c < 2 ^ 32 /\ bit_offset c 21 = 20 + 21 * 12.
Proof.
  split; [repeat constructor|]. split; [reflexivity|]. split; [reflexivity|].
  split; [repeat constructor|]. repeat split.
Qed.

(** A size of 0 counts as 1: an array without elements has a value. *)
Theorem C51_empty_refuted : exists a, elements (a_dims a) = 0 /\ nof_array_values a = 3.
Proof. exists (shape_arr [3; 0]). split; reflexivity. Qed.
Print Assumptions C51_empty_refuted.

(** Sizes whose product passes 64 bits give a small number of values, here none. *)
Theorem C51_overflow_refuted : exists a, Forall (fun d => 0 < d /\ d < 2 ^ 64) (a_dims a) /\
  elements (a_dims a) = 2 ^ 64 /\ nof_array_values a = 0.
Proof.
  exists (shape_arr [2 ^ 32; 2 ^ 32]). split; [repeat constructor|]. split; reflexivity.
Qed.
Print Assumptions C51_overflow_refuted.

(* ------------------------------------------------------------------ *)
(** ** C63: channel arrays *)

(** An array block is read back as it was written: type, storage, flags, sizes, references, axis
    values and cycle counts. *)
Theorem C63_array : forall a, ca_ok a -> stored write_ca (fun _ => read_ca) a.
Proof.
  intros a OK. apply writes_stored. exists 0%nat. intros fuel _. apply (writes_untyped [67; 65]).
  apply writes_ca. exact OK.
Qed.
Print Assumptions C63_array.

(** And so is every list of array blocks. *)
Theorem C63_array_list : forall l, Forall ca_ok l -> stored_list write_ca (fun _ => read_ca) l.
Proof.
  intros l F. apply writes_stored_list. eapply Forall_impl; [|exact F]. intros a OK. exists 0%nat.
  intros fuel _. apply (writes_untyped [67; 65]). apply writes_ca. exact OK.
Qed.
Print Assumptions C63_array_list.

(** A map with a fixed axis and cycle counts, and a look-up with references. *)
Definition arr1 : ca :=
  mkCa 2 1 (32 + 16 + 4) 4 0 [2; 3] [] [] [] (64, 128, 192) (0, 0, 0) [7; 9] [] [1; 2; 3; 4; 5] [10; 20; 30; 40; 50; 60].
Definition arr2 : ca :=
  mkCa 4 2 (16 + 8 + 2 + 1) 8 3 [3; 1] [1000; 2000; 3000] [(1, 2, 3); (4, 5, 6)]
    [(11, 12, 13); (14, 15, 16)] (0, 0, 0) (21, 22, 23) [31; 32]
    [(41, 42, 43); (44, 45, 46)] [] [5; 6; 7].

Lemma arr_ok : ca_ok arr1 /\ ca_ok arr2.
Proof.
  split; unfold ca_ok, sized, u8, u32, u64; cbv zeta; cbn [arr1 arr2 a_type a_storage a_flags a_offset a_invalid a_dims a_data a_dynamic
      a_input a_output a_compare a_convs a_axis a_values a_cycles];
    repeat match goal with
           | |- _ /\ _ => split
           | |- Forall _ _ => repeat constructor
           | |- u64_3 _ => repeat constructor
           | |- _ < _ => reflexivity
           | |- _ = _ => reflexivity
           | |- _ -> _ => first [discriminate | reflexivity]
           end.
Qed.

Example C63_witness : Forall ca_ok [arr1; arr2] /\
  exists f' l, write_chain write_ca None [arr1; arr2] [1; 2; 3] = Ok (f', l) /\
    read_chain read_ca 2 (f' ++ [9]) l = Ok [arr1; arr2] /\ length f' = 496%nat.
Proof.
  split; [repeat constructor; apply arr_ok|].
  remember (write_chain write_ca None [arr1; arr2] [1; 2; 3]) as w eqn:E. vm_compute in E. subst w.
  eexists _, _. split; [reflexivity|]. split; [vm_compute; reflexivity|]. vm_compute. reflexivity.
Qed.

(** With fewer data links than elements the block cannot be written. *)
Theorem C63_data_links_refuted : exists a, a_storage a = 2 /\
  N.of_nat (length (a_data a)) < elements (a_dims a) /\ forall f, write_ca a f = Fail.
Proof.
  exists (mkCa 0 2 0 0 0 [2] [64] [] [] (0, 0, 0) (0, 0, 0) [] [] [] [0; 0]).
  split; [reflexivity|]. split; [reflexivity|]. intros f. reflexivity.
Qed.
Print Assumptions C63_data_links_refuted.

(** An array with 65536 dimensions loses its shape. *)
Theorem C63_dimensions_refuted : exists a f' pos, N.of_nat (length (a_dims a)) = 2 ^ 16 /\
  write_ca a [0] = Ok (f', pos) /\ exists b, read_ca f' pos = Ok (b, 0) /\ a_dims b = [].
Proof.
  exists (shape_arr (repeat 1 (N.to_nat 65536))).
  remember (write_ca (shape_arr (repeat 1 (N.to_nat 65536))) [0]) as w eqn:E. vm_compute in E. subst w.
  eexists _, _. split; [cbn [shape_arr a_dims]; rewrite repeat_length, N2Nat.id; reflexivity|]. split; [reflexivity|].
  eexists. split; [vm_compute; reflexivity|]. reflexivity.
Qed.
Print Assumptions C63_dimensions_refuted.

(* ------------------------------------------------------------------ *)
(** ** C64: channels *)

(** A channel is read back as it was written, with its name, unit, comment, source, conversion,
    attachments, default X reference, and its arrays or member channels, at any depth. The
    conversions are read in the form [conv_form]; see C64_conversion. *)
Theorem C64_channel : forall c, cn_ok c -> stored_as write_cn read_cn c (cn_form c).
Proof.
  intros c OK. apply writes_stored_as. destruct (writes_cn c OK) as [n H]. exists n. intros fuel L.
  apply (writes_untyped [67; 78]). auto.
Qed.
Print Assumptions C64_channel.

(** And so are the channels of a group, in their order. *)
Theorem C64_channels : forall l, Forall cn_ok l -> stored_list_as write_cn read_cn l (map cn_form l).
Proof.
  intros l F. apply writes_stored_list_as. eapply Forall_impl; [|exact F]. intros c OK.
  destruct (writes_cn c OK) as [n H]. exists n. intros fuel L. apply (writes_untyped [67; 78]). auto.
Qed.
Print Assumptions C64_channels.

(** A conversion that is read converts every value as the object that was written. *)
Theorem C64_conversion : forall dt c, conv_ok c -> ConvProofs3.typed dt c ->
  c_type (conv_form dt c) = c_type c /\ c_vals (conv_form dt c) = c_vals c /\
  c_decimals (conv_form dt c) = c_decimals c /\
  forall fp fl fe fm x,
    convert_str fp fl fe fm (conv_form dt c) x = convert_str fp fl fe fm (written c) x /\
    convert_num fp fl fe (conv_form dt c) x = convert_num fp fl fe (written c) x.
Proof.
  intros dt c OK T. destruct (conv_ok_fits dt c OK) as (_ & SV & E).
  split; [rewrite conv_form_eq; reflexivity|]. split; [rewrite conv_form_eq; reflexivity|].
  split; [rewrite conv_form_eq; reflexivity|]. intros fp fl fe fm x. rewrite <- E. split.
  - apply saved_str; auto.
  - inversion T as [? D' _]; subst. inversion SV as [? M _ _]; subst. apply num_same; rewrite reread_eq, written_eq; reflexivity.
Qed.
Print Assumptions C64_conversion.

(** Without a conversion in it, a channel is read exactly as it was. *)
Theorem C64_same : forall h cx, n_conv h = None -> (forall c, In (CSub c) cx -> cn_form c = c) ->
  cn_form (mkCn h cx) = mkCn h cx.
Proof.
  intros h cx E F. cbn [cn_form]. f_equal.
  - destruct h. cbn in E. subst. reflexivity.
  - rewrite <- (map_id cx) at 2. apply map_ext_in. intros [a|c] I; [reflexivity|]. rewrite F by auto. reflexivity.
Qed.
Print Assumptions C64_same.

(** Bits to texts with a nested conversion, and a line through two numbers. *)
Definition conv1 : conv :=
  mkConv true tBitText 0 [PU 3; PU 5] 4 None [] []
    [RText BNew [65]; RConv (mkConv true tTextText 0 [] 4 (Some 2) [] [] [RNone; RText BNew [66]; RText BNew [67]])].
Definition conv2 : conv := mkConv true tLinear 0 [PD (of_Z 1); PD (of_Z 2)] 4 None [] [] [].

Lemma conv1_ok : conv_ok conv1 /\ conv_ok conv2 /\ ConvProofs3.typed 4 conv1 /\ ConvProofs3.typed 4 conv2.
Proof.
  assert (R : forall a, a <> 0 -> a <> 60 -> is_space a = false -> ref_ok (RText BNew [a])).
  { intros a A B C. constructor; [|exact B|reflexivity].
    split; [intros [X|[]]; auto|intros _; split; exact C]. }
  split; [|split; [|split]].
  - constructor; try reflexivity.
    + repeat constructor.
    + constructor; [apply R; discriminate || reflexivity|]. constructor; [|constructor]. constructor.
      constructor; try reflexivity; [constructor|].
      constructor; [constructor|]. constructor; [apply R; discriminate || reflexivity|].
      constructor; [apply R; discriminate || reflexivity|constructor].
  - constructor; try reflexivity; [|constructor]. repeat constructor; discriminate.
  - constructor; [reflexivity|]. intros c' [E|[E|[]]]; try discriminate. inversion E; subst.
    constructor; [reflexivity|]. intros c'' [X|[X|[X|[]]]]; discriminate.
  - constructor; [reflexivity|]. intros c' [].
Qed.

Definition src1 : si := mkSi [67; 65; 78] [] (Some [60; 109; 62]) 2 2 0.
Definition cnh1 (name : list N) : cnh :=
  mkCnh 0 0 4 0 8 64 4096 0 3 0 1 2 3 4 5 name (Some [109; 47; 115]) None (Some src1) [640; 720] (64, 128, 0) (Some conv1).
Definition cn1 : cn := mkCn (cnh1 [83]) (map CArr [arr1; arr2]).
Definition cn2 : cn := mkCn (cnh1 [84]) (map CSub [cn1; mkCn (cnh1 []) (map CSub [])]).

Lemma cnh1_ok : forall name, plain_text name -> cnh_ok (cnh1 name).
Proof.
  intros name P. unfold cnh_ok, source_ok, si_ok, u8, u16, u32, u64, text_ok, comment_ok.
  cbn [cnh1 src1 n_type n_sync n_dtype n_bitoff n_byteoff n_bits n_flags n_invalid n_precision n_rmin n_rmax
    n_lmin n_lmax n_emin n_emax n_name n_unit n_md n_si n_attach n_defx n_conv si_name si_path si_md si_type si_bus si_flags].
  unfold si_ok, u8, text_ok, comment_ok. cbn [si_name si_path si_md si_type si_bus si_flags].
  repeat match goal with
         | |- _ /\ _ => split
         | |- Forall _ _ => repeat constructor
         | |- u64_3 _ => repeat constructor
         | |- plain_text _ => first [exact P | split; [intros X; cbn in X; decompose [or] X; auto; discriminate
                                                     | intros X; first [congruence | split; reflexivity]]]
         | |- _ < _ => reflexivity
         | |- conv_ok _ => apply conv1_ok
         | |- True => exact Logic.I
         | |- _ -> _ => first [discriminate | reflexivity]
         end.
Qed.

Lemma cn2_ok : cn_ok cn2.
Proof.
  apply cn_members; [apply cnh1_ok; split; [intros [X|[]]; discriminate|intros _; split; reflexivity]|].
  constructor; [|constructor; [|constructor]].
  - apply cn_arrays; [apply cnh1_ok; split; [intros [X|[]]; discriminate|intros _; split; reflexivity]|].
    repeat constructor; apply arr_ok.
  - apply cn_members; [apply cnh1_ok; split; [intros []|intros X; congruence]|constructor].
Qed.

Example C64_witness : cn_ok cn2 /\
  exists f' pos, write_cn cn2 [0] = Ok (f', pos) /\ read_cn 4 (f' ++ [1; 2]) pos = Ok (cn_form cn2, 0) /\ cn_form cn2 <> cn2.
Proof.
  split; [apply cn2_ok|].
  remember (write_cn cn2 [0]) as w eqn:E. vm_compute in E. subst w.
  eexists _, _. split; [reflexivity|]. split; [vm_compute; reflexivity|]. vm_compute. discriminate.
Qed.

Definition cnh0 : cnh :=
  mkCnh 0 0 0 0 0 8 0 0 0 0 0 0 0 0 0 [] None None None [] (0, 0, 0) None.

Lemma cnh0_ok : cnh_ok cnh0.
Proof.
  unfold cnh_ok, cnh0. cbn. repeat match goal with
    | |- _ /\ _ => split | |- Forall _ _ => constructor | |- True => exact Logic.I
    | |- text_ok _ => split; [intros []|intros X; congruence] | |- _ -> _ => reflexivity | |- _ => reflexivity end.
Qed.

(** A channel that is both an array and a structure loses its members: they are read as arrays. *)
Theorem C64_mixed_refuted : exists h a c f' pos k x, cnh_ok h /\ ca_ok a /\ cn_ok c /\
  write_cn (mkCn h [CArr a; CSub c]) [0] = Ok (f', pos) /\
  read_cn 4 f' pos = Ok (mkCn k [CArr a; CArr x], 0).
Proof.
  assert (W : exists f' pos k x,
    write_cn (mkCn (cnh0) [CArr (shape_arr []); CSub (mkCn (cnh0) [])]) [0] = Ok (f', pos) /\
    read_cn 4 f' pos = Ok (mkCn k [CArr (shape_arr []); CArr x], 0)).
  { remember (write_cn (mkCn (cnh0) [CArr (shape_arr []); CSub (mkCn (cnh0) [])]) [0]) as w eqn:E.
    vm_compute in E. subst w. eexists _, _, _, _. split; [reflexivity|]. vm_compute. reflexivity. }
  destruct W as (f' & pos & k & x & W1 & W2).
  exists (cnh0), (shape_arr []), (mkCn (cnh0) []), f', pos, k, x.
  split; [exact cnh0_ok|].
  split.
  { unfold ca_ok, sized. cbn. repeat match goal with
           | |- _ /\ _ => split | |- Forall _ _ => repeat constructor | |- u64_3 _ => repeat constructor
           | |- _ -> _ => reflexivity | |- _ => reflexivity end. }
  split; [apply (cn_members _ []); [exact cnh0_ok|constructor]|].
  split; [exact W1|exact W2].
Qed.
Print Assumptions C64_mixed_refuted.

(** A channel whose composition link leads to another block, here a text. *)
Definition odd_file : file :=
  match write_block4 ty_cn 0 [0; 8; 0; 0; 0; 0; 0; 0] (fields_bytes (cn_fields cnh0))
          (repeat 0 8 ++ [35; 35; 84; 88] ++ repeat 0 4) with
  | Ok (f, _) => f
  | _ => []
  end.

(** A file whose channel has another block as its composition is never read to the end. *)
Theorem C64_composition_refuted : exists b p, read_header4 odd_file 16 = Ok (b, p) /\ b_type b = ty_cn /\
  forall fuel, read_cn fuel odd_file 16 = UB.
Proof.
  remember (read_header4 odd_file 16) as r eqn:E. vm_compute in E. subst r. eexists _, _.
  split; [reflexivity|]. split; [reflexivity|]. intros fuel. destruct fuel as [|k]; [reflexivity|].
  vm_compute. reflexivity.
Qed.
Print Assumptions C64_composition_refuted.

(* ------------------------------------------------------------------ *)
(** ** C65: groups and the header *)

(** A channel group is read back as it was written, with all its channels. *)
Theorem C65_channel_group_partial : forall g, cg_ok g -> stored_as write_cg read_cg g (cg_form g).
Proof. intros g OK. apply writes_stored_as. apply writes_cg. exact OK. Qed.
Print Assumptions C65_channel_group_partial.

(** A channel group block has the link to the remote master exactly when its flags say so (bit 3). *)
Theorem C65_links : forall g f f' pos, cg_ok g -> (0 < length f)%nat -> write_cg g f = Ok (f', pos) ->
  N.of_nat (length f') < 2 ^ 63 ->
  exists b p, read_header4 f' pos = Ok (b, p) /\ b_type b = ty_cg /\
    length (b_links b) = (if N.testbit (g_flags g) 3 then 7 else 6)%nat.
Proof.
  intros g f f' pos (U1 & U2 & U3 & U4 & U5 & U6 & T1 & S1 & C1 & F) NE E B.
  destruct (writes_more_as write_cn read_cn cn_form (g_cns g)) as [n0 HN0].
  { eapply Forall_impl; [|exact F]. intros x OK. destruct (writes_cn x OK) as [m Hm]. exists m.
    intros fuel L. apply (writes_untyped [67; 78]). auto. }
  destruct (step _ _ _ f (emits_chain_as _ _ (max n0 (length (g_cns g))) _ _ (HN0 (max n0 (length (g_cns g))) ltac:(lia)) ltac:(lia)) NE) as (f1 & l1 & E1 & G1 & N1 & R1).
  destruct (step _ _ _ f1 (emits_tx _ T1) N1) as (f2 & l2 & E2 & G2 & N2 & R2).
  destruct (step _ _ _ f2 (emits_si _ S1) N2) as (f3 & l3 & E3 & G3 & N3 & R3).
  destruct (step _ _ _ f3 (emits_md _ C1) N3) as (f4 & l5 & E4 & G4 & N4 & R4).
  pose proof (grows_trans _ _ _ G1 (grows_trans _ _ _ G2 (grows_trans _ _ _ G3 G4))) as G04.
  unfold write_cg in E. rewrite E1 in E. cbn [bind] in E. rewrite E2 in E. cbn [bind] in E. rewrite E3 in E.
  cbn [bind] in E. rewrite E4 in E. cbn [bind] in E. cbv zeta in E.
  set (rm := has (g_flags g) fRemote) in E.
  assert (RM : N.testbit (g_flags g) 3 = rm).
  { unfold rm, has, fRemote. change 8 with (2 ^ 3). generalize (g_flags g). intros k.
    destruct (N.eqb_spec (N.land k (2 ^ 3)) 0) as [Z|Z]; cbn [negb].
    - assert (T : N.testbit (N.land k (2 ^ 3)) 3 = false) by (rewrite Z; apply N.bits_0).
      rewrite N.land_spec, N.pow2_bits_true, Bool.andb_true_r in T. exact T.
    - destruct (N.testbit k 3) eqn:T; [reflexivity|]. exfalso. apply Z. apply N.bits_inj. intros m.
      rewrite N.land_spec, N.bits_0, N.pow2_bits_eqb. destruct (N.eqb_spec 3 m) as [<-|]; [rewrite T; reflexivity|].
      apply Bool.andb_false_r. }
  rewrite RM. clearbody rm.
  set (body := fields_bytes _) in E. clearbody body.
  destruct (wb ty_cg (if rm then 112 else 104) 0 ([l1; l2; l3; 0; l5] ++ (if rm then [0] else []))
     body f f4 ltac:(apply type_ok_lit; discriminate || reflexivity) G04 NE)
    as (f'' & b & E' & G & P1 & P2 & HZ & HB & EB & LF & R).
  change ([0; l1; l2; l3; 0; l5] ++ (if rm then [0] else []))
    with (0 :: [l1; l2; l3; 0; l5] ++ (if rm then [0] else [])) in E.
  rewrite E' in E. cbn [bind] in E.
  assert (f'' = f' /\ b_pos b = pos) as [EF EP] by (split; congruence). subst f'' pos. clear E E' EB.
  assert (B4 : N.of_nat (length f4) < 2 ^ 63) by (pose proof (grows_length _ _ G); lia).
  destruct (R1 f4 (grows_trans _ _ _ G2 (grows_trans _ _ _ G3 G4)) B4) as [W1 _].
  destruct (R2 f4 (grows_trans _ _ _ G3 G4) B4) as [W2 _].
  destruct (R3 f4 G4 B4) as [W3 _]. destruct (R4 f4 (grows_refl _) B4) as [W4 _].
  destruct (R B) with (g := f') (n := 0) as (RH & _); auto.
  { apply Forall_app. split; [repeat constructor; assumption|]. destruct rm; repeat constructor. }
  { intros i _ _. reflexivity. }
  { reflexivity. }
  eexists _, _. split; [exact RH|]. split; [reflexivity|]. cbn [b_links]. destruct rm; reflexivity.
Qed.
Print Assumptions C65_links.

(** A data group is read back as it was written, with all its channel groups. *)
Theorem C65_data_group_partial : forall d, dg_ok d -> stored_as write_dg read_dg d (dg_form d).
Proof. intros d OK. apply writes_stored_as. apply writes_dg. exact OK. Qed.
Print Assumptions C65_data_group_partial.

(** The whole description of a measurement is read back as it was written, also after more has been
    appended to the file, and what was in the file before is kept. *)
Theorem C65_measurement_partial : forall h, hd_ok h -> exists enough, forall fuel, (enough <= fuel)%nat ->
  forall f, (0 < length f)%nat ->
  exists f' b, write_hd h f = Ok (f', b) /\ firstn (length f) f' = f /\
    (N.of_nat (length f') < 2 ^ 63 -> forall g, read_hd fuel (f' ++ g) (b_pos b) = Ok (hd_form h)).
Proof.
  intros h OK. destruct (stored_hd h OK) as [n H]. exists n. intros fuel L f NE.
  destruct (H fuel L f NE) as (f' & b & E & G & _ & _ & R). exists f', b. split; auto.
  split; [apply grows_firstn; auto|]. intros B g. apply R; auto. apply grows_same. eexists. reflexivity.
Qed.
Print Assumptions C65_measurement_partial.

(* ------------------------------------------------------------------ *)
(** ** C66: history, attachments, hierarchies and events *)

(** A file history entry is read back as it was written. *)
Theorem C66_history : forall h, fh_ok h -> stored write_fh (fun _ => read_fh) h.
Proof. intros h OK. apply writes_stored. exists 0%nat. intros fuel _. apply writes_fh. exact OK. Qed.
Print Assumptions C66_history.

(** An embedded attachment is read back as it was written, with its data. *)
Theorem C66_attachment_partial : forall a, at_ok a -> stored write_at (fun _ => read_at) a.
Proof. intros a OK. apply writes_stored. exists 0%nat. intros fuel _. apply writes_at. exact OK. Qed.
Print Assumptions C66_attachment_partial.

(** An event is read back as it was written, with its references. *)
Theorem C66_event : forall e, ev_ok e -> stored write_ev (fun _ => read_ev) e.
Proof. intros e OK. apply writes_stored. exists 0%nat. intros fuel _. apply writes_ev. exact OK. Qed.
Print Assumptions C66_event.

(** A hierarchy without elements is read back as it was written, at any depth. *)
Theorem C66_hierarchy_partial : forall c, ch_ok c -> stored write_ch read_ch c.
Proof. intros c OK. apply writes_stored. apply writes_ch. exact OK. Qed.
Print Assumptions C66_hierarchy_partial.

(** The elements of a hierarchy are written from link 4 on and read from link 5 on: each reference
    is taken for the one before it. *)
Theorem C66_elements_refuted : exists f' pos,
  write_ch (mkCh [76] 0 None [(100, 200, 300); (400, 500, 600)] []) [0] = Ok (f', pos) /\
  read_ch 1 f' pos = Ok (mkCh [76] 0 None [(200, 300, 400); (500, 600, 0)] [], 0).
Proof.
  remember (write_ch (mkCh [76] 0 None [(100, 200, 300); (400, 500, 600)] []) [0]) as w eqn:E.
  vm_compute in E. subst w. eexists _, _. split; [reflexivity|]. vm_compute. reflexivity.
Qed.
Print Assumptions C66_elements_refuted.

(* ------------------------------------------------------------------ *)
(** ** A measurement that meets the hypotheses *)

Definition meas1 : hd :=
  mkHd (mkStamp4 1700000000000000000 60 0 2) 10 0 0 0 (Some [60; 72; 62])
    [mkFh (mkStamp4 1 0 0 0) (Some [70]); mkFh (mkStamp4 2 0 0 0) None]
    [mkAt 1 0 (repeat 7 16) 3 [1; 2; 3] [97] [98] None]
    [mkCh [65] 0 None [] [mkCh [66] 1 (Some [99]) [] []; mkCh [] 2 None [] []]]
    [mkEv 2 1 0 0 2 0 5 6 64 0 [128; 256] [512] [69] [71] None]
    [mkDg 1 None 0 [mkCg 1 100 0 46 8 1 [72] (Some src1) None [cn2; cn1]; mkCg 2 0 0 46 4 0 [] None (Some [120]) []];
     mkDg 0 (Some [121]) 4096 []].

Lemma meas1_ok : hd_ok meas1.
Proof.
  assert (PT : forall c, c <> 0 -> is_space c = false -> plain_text [c]).
  { intros c A W. split; [intros [X|[]]; auto|intros _; split; exact W]. }
  assert (P0 : plain_text []) by (split; [intros []|intros X; congruence]).
  assert (CN1 : cn_ok cn1).
  { apply cn_arrays; [apply cnh1_ok; apply PT; [discriminate|reflexivity]|]. repeat constructor; apply arr_ok. }
  pose proof (proj1 (proj2 (proj2 (proj2 (proj2 (proj2 (cnh1_ok [] P0))))))) as SO.
  unfold hd_ok. cbn [meas1 h_time h_class h_flags h_angle h_distance h_md h_fhs h_ats h_chs h_evs h_dgs].
  split; [repeat split|]. split; [split; [intros X; cbn in X; decompose [or] X; auto; discriminate|intros _; split; reflexivity]|].
  split; [repeat constructor; cbn; auto; apply PT; discriminate || reflexivity|].
  split; [repeat constructor; cbn; auto; apply PT; discriminate || reflexivity|].
  split.
  { repeat constructor; cbn; auto; try apply PT; try discriminate; try reflexivity. }
  split.
  { constructor; [|constructor]. unfold ev_ok. cbn [e_type e_sync e_range e_cause e_flags e_creator e_base e_factor
      e_parent e_begin e_scope e_attach e_name e_group e_md].
    repeat match goal with |- _ /\ _ => split end; try reflexivity; try (repeat constructor; fail);
      try (apply PT; [discriminate|reflexivity]); try exact Logic.I. }
  constructor; [|constructor; [|constructor]].
  - unfold dg_ok. cbn [d_idsize d_md d_link d_cgs]. split; [reflexivity|]. split; [reflexivity|]. split; [exact Logic.I|].
    constructor; [|constructor; [|constructor]].
    + unfold cg_ok. cbn [g_record g_samples g_flags g_separator g_data g_inval g_name g_si g_md g_cns].
      repeat match goal with |- _ /\ _ => split end; try reflexivity; try exact Logic.I;
        try (apply PT; [discriminate|reflexivity]); try exact SO.
      constructor; [apply cn2_ok|]. constructor; [exact CN1|constructor].
    + unfold cg_ok. cbn [g_record g_samples g_flags g_separator g_data g_inval g_name g_si g_md g_cns].
      repeat match goal with |- _ /\ _ => split end; try reflexivity; try exact Logic.I; try exact P0.
      * apply PT; [discriminate|reflexivity].
      * constructor.
  - unfold dg_ok. cbn [d_idsize d_md d_link d_cgs]. split; [reflexivity|]. split; [reflexivity|]. split; [|constructor].
    apply PT; [discriminate|reflexivity].
Qed.

Example C65_witness : hd_ok meas1 /\
  exists f' b, write_hd meas1 (repeat 0 (N.to_nat 64)) = Ok (f', b) /\ b_pos b = 64%nat /\
    read_hd 4 (f' ++ [5]) 64 = Ok (hd_form meas1).
Proof.
  split; [apply meas1_ok|].
  remember (write_hd meas1 (repeat 0 (N.to_nat 64))) as w eqn:E. vm_compute in E. subst w.
  eexists _, _. split; [reflexivity|]. split; [reflexivity|]. vm_compute. reflexivity.
Qed.

Example C66_witness : Forall fh_ok (h_fhs meas1) /\ Forall at_ok (h_ats meas1) /\ Forall ev_ok (h_evs meas1) /\
  Forall ch_ok (h_chs meas1) /\
  exists f' l, write_chain write_ev None (h_evs meas1) [0] = Ok (f', l) /\ read_chain read_ev 1 f' l = Ok (h_evs meas1).
Proof.
  destruct meas1_ok as (_ & _ & A & B & C & D & _). split; auto. split; auto. split; auto. split; auto.
  remember (write_chain write_ev None (h_evs meas1) [0]) as w eqn:E. vm_compute in E. subst w.
  eexists _, _. split; [reflexivity|]. vm_compute. reflexivity.
Qed.
