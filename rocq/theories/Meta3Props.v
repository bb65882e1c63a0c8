(** C73: the description of a measurement in an MDF3 file. *)
From Verif Require Import Base BlockModel BlockSpec BlockProofs BlockProofs4 ConvModel CcModel Cc3Proofs MetaModel MetaProofs
  IdentModel IdentSpec IdentProofs Meta3Model Meta3Spec Meta3Proofs Meta3Proofs2.
Local Open Scope N_scope.

(** A conversion with its range and unit is read as it was written, up to what the findings about
    conversions say: in every file that has these bytes in this place. *)
Theorem C73_conversion_partial : forall c c' f, ccx_as c c' -> (0 < length f)%nat ->
  exists f' p, write_ccx c f = Ok (f', p) /\ (exists x, f' = f ++ x) /\
    (N.of_nat (length f') < 2 ^ 32 -> forall g, read_ccx (f' ++ g) p = Ok c').
Proof.
  intros c c' f A NE. destruct (ccx_emit c c' A f NE) as (f' & p & E & G & _ & _ & R).
  exists f', p. split; [exact E|]. split; [exact G|]. intros B g. apply R; [exact B|].
  intros i Hi. apply nth_error_app1. lia.
Qed.
Print Assumptions C73_conversion_partial.

(** A channel is read as it was written, whatever is appended, and the link to the next channel is
    the one stored last. *)
Theorem C73_channel_partial : forall c c' f, cn3_as c c' -> (0 < length f)%nat ->
  exists f' p, write_cn3 c f = Ok (f', p) /\ (exists x, f' = f ++ x) /\
    (N.of_nat (length f') < 2 ^ 32 -> forall g n, n < 2 ^ 32 ->
       read_cn3 (f' ++ g) p = Ok (c', 0) /\ read_cn3 (set3 f' p 0 n ++ g) p = Ok (c', n)).
Proof.
  intros c c' f A NE. destruct (writes_cn3 c c' A f NE) as (f' & p & E & G & L1 & L2 & R).
  exists f', p. split; [exact E|]. split; [exact G|]. intros B g n Bn. destruct (R B) as [Z RD]. split.
  - apply RD; [|reflexivity|apply holds_ext; exact Z]. intros i Hi _. apply nth_error_app1. lia.
  - assert (PL : (p + 4 + 4 * 0 + length (le_bytes 4 (w32 n)) <= length f')%nat) by (rewrite le_bytes_length; lia).
    assert (LP : length (set3 f' p 0 n) = length f') by (apply put_length; exact PL).
    apply RD; [|exact Bn|].
    + intros i Hi D. rewrite nth_error_app1 by lia.
      destruct (put_same_outside f' (p + 4 + 4 * 0) (le_bytes 4 (w32 n)) PL) as [_ SO]. apply SO. rewrite le_bytes_length. lia.
    + apply holds_ext. pose proof (holds_put f' (p + 4 + 4 * 0) (le_bytes 4 (w32 n)) PL) as H.
      rewrite w32_id in H by exact Bn. replace (p + 4 + 4 * 0)%nat with (p + 4)%nat in H by lia.
      unfold set3. rewrite w32_id by exact Bn. replace (p + 4 + 4 * 0)%nat with (p + 4)%nat by lia. exact H.
Qed.
Print Assumptions C73_channel_partial.

(** A channel group with its channels. *)
Theorem C73_channel_group_partial : forall fuel c c' f, cg3_as c c' -> cg3_fuel fuel c -> (0 < length f)%nat ->
  exists f' p, write_cg3 c f = Ok (f', p) /\ (exists x, f' = f ++ x) /\
    (N.of_nat (length f') < 2 ^ 32 -> forall g, read_cg3 fuel (f' ++ g) p = Ok (c', 0)).
Proof.
  intros fuel c c' f A FU NE. destruct (writes_cg3 fuel c c' A FU f NE) as (f' & p & E & G & L1 & L2 & R).
  exists f', p. split; [exact E|]. split; [exact G|]. intros B g. destruct (R B) as [Z RD].
  apply RD; [|reflexivity|apply holds_ext; exact Z]. intros i Hi _. apply nth_error_app1. lia.
Qed.
Print Assumptions C73_channel_group_partial.

(** A data group with its channel groups. *)
Theorem C73_data_group_partial : forall fuel d d' f, dgb3_as d d' -> dgb3_fuel fuel d -> (0 < length f)%nat ->
  exists f' p, write_dgb3 d f = Ok (f', p) /\ (exists x, f' = f ++ x) /\
    (N.of_nat (length f') < 2 ^ 32 -> forall g, read_dgb3 fuel (f' ++ g) p = Ok (d', 0)).
Proof.
  intros fuel c c' f A FU NE. destruct (writes_dgb3 fuel c c' A FU f NE) as (f' & p & E & G & L1 & L2 & R).
  exists f', p. split; [exact E|]. split; [exact G|]. intros B g. destruct (R B) as [Z RD].
  apply RD; [|reflexivity|apply holds_ext; exact Z]. intros i Hi _. apply nth_error_app1. lia.
Qed.
Print Assumptions C73_data_group_partial.

(** A whole file: it is recognised, opened by the class of its version, and gives the identification
    and the description, also after data has been appended. *)
Theorem C73_file_partial : forall fuel d h h', id_texts d -> id_numbers d -> i_file d = txt_mdf ->
  i_version d < 400 -> hd3_as h h' -> hd3_fuel fuel h ->
  exists f', write_file3 d h = Ok (f', 64%nat) /\
    (N.of_nat (length f') < 2 ^ 32 -> forall g,
       is_mdf_file (f' ++ g) = true /\ file_class (f' ++ g) = Ok Mdf3 /\
       read_file3 fuel (f' ++ g) = Ok (id_trimmed d, h')).
Proof.
  intros fuel d h h' T NU F V A FU.
  assert (L64 : length (write_id false d []) = 64%nat).
  { pose proof (write_id_holds d [] ) as H. unfold write_id. rewrite put_in by (cbn; lia).
    cbn [firstn app]. rewrite skipn_nil, app_nil_r. apply id_bytes_length. }
  destruct (hd3_written fuel h h' A FU (write_id false d []) ltac:(lia)) as (x & E & LX & R).
  exists (write_id false d [] ++ x). rewrite L64 in E. split; [exact E|]. intros B g.
  assert (RI : read_id ((write_id false d [] ++ x) ++ g) = Ok (id_trimmed d)).
  { apply read_id_holds; auto. apply holds_ext. apply holds_ext. apply write_id_holds. }
  split; [|split].
  - unfold is_mdf_file. apply andb_true_intro. split.
    + rewrite !app_length, L64. apply Nat.ltb_lt || apply N.ltb_lt. lia.
    + unfold is_mdf. rewrite RI. unfold id_trimmed. cbn [i_file]. rewrite F. reflexivity.
  - unfold file_class. rewrite RI. unfold id_trimmed. cbn [bind i_version].
    replace (400 <=? i_version d) with false by (symmetry; apply N.leb_gt; exact V). reflexivity.
  - unfold read_file3. rewrite RI. cbn [bind]. rewrite L64 in R. rewrite R.
    + reflexivity.
    + exact B.
    + rewrite <- app_assoc. rewrite <- L64. apply holds_end.
Qed.
Print Assumptions C73_file_partial.

(** The name of a channel is the one that was set, after the file is written and read. *)
Theorem C73_name : forall name c c' f, text3_ok name -> cn3_as (set_name3 name c) c' -> (0 < length f)%nat ->
  exists f' p, write_cn3 (set_name3 name c) f = Ok (f', p) /\
    (N.of_nat (length f') < 2 ^ 32 -> forall g, exists k,
       read_cn3 (f' ++ g) p = Ok (k, 0) /\ get_name3 k = name).
Proof.
  intros name c c' f T A NE. destruct (writes_cn3 _ c' A f NE) as (f' & p & E & G & L1 & L2 & R).
  exists f', p. split; [exact E|]. intros B g. destruct (R B) as [Z RD]. exists c'. split.
  - apply RD; [|reflexivity|apply holds_ext; exact Z]. intros i Hi _. apply nth_error_app1. lia.
  - destruct A as (_ & _ & cc & _ & ->). unfold get_name3, set_name3. cbn [n3_long n3_short].
    destruct (31 <? length name)%nat eqn:L; [|reflexivity].
    destruct name; [discriminate|reflexivity].
Qed.
Print Assumptions C73_name.

(* ------------------------------------------------------------------ *)
(** ** What is lost *)

(** A channel group as the writer writes it, with a link to sample reductions, loses the link: it is
    read only from blocks longer than the 30 bytes that hold it (cg3block.cpp:103). *)
Theorem C73_reduction_refuted :
  ~ (forall fuel g f f' p, g3_sr g < 2 ^ 32 -> write_cg3 g f = Ok (f', p) ->
     forall g' n, read_cg3 fuel f' p = Ok (g', n) -> g3_sr g' = g3_sr g).
Proof.
  intros H. specialize (H 1%nat (mkCg3 0 8 0 64 [] []) [0] _ _ ltac:(reflexivity) eq_refl _ _ eq_refl). discriminate H.
Qed.
Print Assumptions C73_reduction_refuted.

Definition long_author : hd3 := mkHd3 (mkT3 [] [] 0 0 0 []) (repeat 65 33) [] [] [] [] [].

Definition seen_author (w : res (file * nat)) : option (list N) :=
  match w with
  | Ok (f, p) => match read_hd3 1 f p with Ok h => Some (h3_author h) | _ => None end
  | _ => None
  end.

Lemma author_seen : forall w a, seen_author w = Some a ->
  exists f p h, w = Ok (f, p) /\ read_hd3 1 f p = Ok h /\ h3_author h = a.
Proof.
  intros w a H. unfold seen_author in H. destruct w as [[f p]| |]; try discriminate.
  destruct (read_hd3 1 f p) as [h| |] eqn:E; try discriminate. exists f, p, h. split; [reflexivity|]. split; [exact E|]. congruence.
Qed.

Lemma author_cut : seen_author (write_hd3 long_author [0]) = Some (repeat 65 32).
Proof. vm_compute. reflexivity. Qed.

(** The author, like the other texts of the header, is cut to 32 bytes without an error. *)
Theorem C73_author_refuted :
  ~ (forall fuel h f f' p, plain_text (h3_author h) -> (0 < length f)%nat -> write_hd3 h f = Ok (f', p) ->
     forall h', read_hd3 fuel f' p = Ok h' -> h3_author h' = h3_author h).
Proof.
  intros H. destruct (author_seen _ _ author_cut) as (f & p & h & E & R & A).
  assert (P : plain_text (h3_author long_author)).
  { split; [intros I; apply (repeat_spec 33 65) in I; discriminate|intros _; split; reflexivity]. }
  pose proof (H 1%nat long_author [0] f p P ltac:(cbn; lia) E h R) as X. rewrite A in X.
  apply (f_equal (@length N)) in X. discriminate X.
Qed.
Print Assumptions C73_author_refuted.

Definition no_channel : cn3 := mkCn3 0 [] [] 0 8 0 false 0 0 0 0 [] [] [] None.

Definition seen_name (w : res (file * nat)) : option (list N * N) :=
  match w with
  | Ok (f, p) => match read_cn3 f p with Ok (c, n) => Some (get_name3 c, n) | _ => None end
  | _ => None
  end.

Lemma name_seen : forall w a n, seen_name w = Some (a, n) ->
  exists f p c, w = Ok (f, p) /\ read_cn3 f p = Ok (c, n) /\ get_name3 c = a.
Proof.
  intros w a n H. unfold seen_name in H. destruct w as [[f p]| |]; try discriminate.
  destruct (read_cn3 f p) as [[c m]| |] eqn:E; try discriminate. exists f, p, c. split; [reflexivity|].
  assert (m = n) as <- by congruence. split; [exact E|]. congruence.
Qed.

Lemma name_cut : seen_name (write_cn3 (set_name3 [32; 65] no_channel) [0]) = Some ([65], 0).
Proof. vm_compute. reflexivity. Qed.

(** White space around the name of a channel is lost. *)
Theorem C73_blank_name_refuted :
  ~ (forall name c f f' p, ~ In 0 name -> name <> [] -> (0 < length f)%nat ->
     write_cn3 (set_name3 name c) f = Ok (f', p) ->
     forall k n, read_cn3 f' p = Ok (k, n) -> get_name3 k = name).
Proof.
  intros H. destruct (name_seen _ _ _ name_cut) as (f & p & c & E & R & A).
  pose proof (H [32; 65] no_channel [0] f p ltac:(intros [X|[X|[]]]; discriminate) ltac:(discriminate) ltac:(cbn; lia) E c 0 R) as X.
  rewrite A in X. discriminate X.
Qed.
Print Assumptions C73_blank_name_refuted.

(* ------------------------------------------------------------------ *)
(** ** A measurement that meets the hypotheses *)

Definition meas3 : hd3 :=
  mkHd3 (mkT3 [48; 49] [48; 50] 1700000000000000000 2 16 [80; 67]) [65; 98] [79] [80] [83] [67; 111]
    [mkDgb3 7 0
       [mkCg3 1 10 5 99
          [mkCn3 1 [116] [84; 49] 0 64 3 true 1 2 3 0 [99] [] [100] None;
           mkCn3 0 (repeat 66 31) [] 64 16 0 false 0 0 0 0 [] (repeat 66 40) []
             (Some (mkCcx true 5 6 [86] (mkCc3 12 [] [] [] [(dbl_of_bits 0, dbl_of_bits 4607182418800017408, [79; 110])]) []))]
          [71];
        mkCg3 2 1 0 0
          [mkCn3 0 [115] [] 0 8 0 false 0 0 0 0 [] [] []
             (Some (mkCcx false 0 0 [] (mkCc3 10 [] [88; 49] [] []) []))] []];
     mkDgb3 0 4096 []].

Definition meas3' : hd3 :=
  mkHd3 (mkT3 [48; 49] [48; 50] 1700000000000000000 2 16 [80; 67]) [65; 98] [79] [80] [83] [67; 111]
    [mkDgb3 1 0
       [mkCg3 1 10 5 0
          [mkCn3 1 [116] [84; 49] 0 64 3 true 1 2 3 0 [99] [] [100] None;
           mkCn3 0 (repeat 66 31) [] 64 16 0 false 0 0 0 0 [] (repeat 66 40) []
             (Some (mkCcx true 5 6 [86] (mkCc3 12 [] [] [] [(dbl_of_bits 0, dbl_of_bits 4607182418800017408, [])]) []))]
          [71];
        mkCg3 2 1 0 0
          [mkCn3 0 [115] [] 0 8 0 false 0 0 0 0 [] [] []
             (Some (mkCcx false 0 0 [] (mkCc3 10 [] [88; 49] [] []) []))] []];
     mkDgb3 0 4096 []].

Definition plain_b (s : list N) : bool :=
  negb (existsb (fun c => c =? 0) s) &&
  match s with [] => true | _ => negb (is_space (List.hd 0 s)) && negb (is_space (last s 0)) end.

Lemma plain_b_ok : forall s, plain_b s = true -> plain_text s.
Proof.
  intros s H. unfold plain_b in H. apply andb_prop in H as [A B]. split.
  - intros I. apply Bool.negb_true_iff in A. assert (X : existsb (fun c => c =? 0) s = true).
    { apply existsb_exists. exists 0. split; [exact I|reflexivity]. }
    congruence.
  - intros NE. destruct s; [congruence|]. apply andb_prop in B as [B C].
    apply Bool.negb_true_iff in B. apply Bool.negb_true_iff in C. auto.
Qed.

Ltac easy_parts :=
  repeat match goal with |- _ /\ _ => split end;
  lazymatch goal with
  | |- plain_text _ => apply plain_b_ok; vm_compute; reflexivity
  | |- _ < _ => vm_compute; reflexivity
  | |- _ <= _ => vm_compute; discriminate
  | |- (_ <= _)%nat => apply Nat.leb_le; vm_compute; reflexivity
  | |- _ => idtac
  end.

Lemma meas3_as : hd3_as meas3 meas3'.
Proof.
  unfold hd3_as, time3_ok, str3_ok, text3_ok. cbn [meas3 h3_time h3_author h3_org h3_project h3_subject h3_comment h3_dgs
    t3_date t3_time t3_timer t3_ns t3_offset t3_quality].
  easy_parts.
  eexists. split; [|reflexivity]. constructor; [|constructor; [|constructor]].
  - unfold dgb3_as. cbn [d3_ids d3_link d3_cgs]. split; [reflexivity|]. split; [reflexivity|]. eexists. split; [|reflexivity].
    constructor; [|constructor; [|constructor]]; unfold cg3_as, text3_ok; cbn [g3_id g3_size g3_nof g3_sr g3_cns g3_comment].
    + easy_parts.
      eexists. split; [|reflexivity]. constructor; [|constructor; [|constructor]];
        unfold cn3_as, text3_ok, str3_ok;
        cbn [n3_type n3_short n3_desc n3_start n3_bits n3_signal n3_valid n3_min n3_max n3_rate n3_offset n3_comment n3_long n3_display n3_cc];
        easy_parts.
      * exists None. split; [exact Logic.I|reflexivity].
      * eexists (Some _). split; [|reflexivity]. unfold ccx_opt_as, ccx_as, str3_ok. cbn [x_valid x_min x_max x_unit x_conv x_pads].
        easy_parts.
        eexists. split; [apply as_ranges; reflexivity|reflexivity].
    + easy_parts.
      eexists. split; [|reflexivity]. constructor; [|constructor].
      unfold cn3_as, text3_ok, str3_ok.
      cbn [n3_type n3_short n3_desc n3_start n3_bits n3_signal n3_valid n3_min n3_max n3_rate n3_offset n3_comment n3_long n3_display n3_cc].
      easy_parts.
      eexists (Some _). split; [|reflexivity]. unfold ccx_opt_as, ccx_as, str3_ok. cbn [x_valid x_min x_max x_unit x_conv x_pads].
      easy_parts.
      eexists. split; [apply as_formula; [apply plain_b_ok; reflexivity|reflexivity]|reflexivity].
  - unfold dgb3_as. cbn [d3_ids d3_link d3_cgs]. split; [reflexivity|]. split; [reflexivity|]. exists []. split; [constructor|reflexivity].
Qed.

Definition of_file3 (w : res (file * nat)) : option (bool * nat * res (idb * hd3)) :=
  match w with
  | Ok (f, p) => Some (is_mdf_file (f ++ [1]), p, read_file3 2 (f ++ [1]))
  | _ => None
  end.

Example C73_witness : hd3_as meas3 meas3' /\ hd3_fuel 2 meas3 /\
  of_file3 (write_file3 new_id3 meas3) = Some (true, 64%nat, Ok (id_trimmed new_id3, meas3')).
Proof.
  split; [apply meas3_as|]. split.
  - split; [cbn; lia|]. repeat constructor; cbn; lia.
  - vm_compute. reflexivity.
Qed.
