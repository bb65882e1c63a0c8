(** C84: records built with data writers (CreateDataWriter, SetValue, Reset, WriteRawRecord, Commit,
    AddSample), alone or mixed with SetChannelValue and SaveSample, are shown by a reader of the file
    with the values that were set. *)
From Verif Require Import Base BlockModel BlockSpec ConvModel ConvSpec CcModel StreamModel StreamSpec QueueModel QueueSpec EncProofs ObsModel ObsSpec ObsProofs
  ChannelModel ChannelSpec HistProofs MetaModel MetaSpec MetaProps IdentModel IdentSpec MeasModel MeasSpec MeasStream MeasProps CompProps WriterModel WriterProofs
  ValueModel ValueSpec ValueProofs ValueProofs2 ValueProofs5 ValueProofs6 ValueProofs7 ValueProps BulkModel BulkSpec BulkProofs BulkProofs2 BulkProofs3 BulkProofs4.
Local Open Scope N_scope.
Local Open Scope list_scope.

(** The layouts of a data writer are the places of the channels that are no masters, in their order. *)
Theorem C84_layouts : forall g y lay, nth_error (layouts g) y = Some lay <->
  exists ci c, layout_channel g y = Some ci /\ nth_error (chans_of g) ci = Some c /\ lay = mkLay ci (ch_byte c) (data_bytes c) (ch_dtype c).
Proof.
  intros g y lay. unfold layouts. rewrite layouts_nth. unfold layout_channel. split.
  - destruct (nth_error (filter _ _) y) as [ci|]; [|discriminate]. destruct (nth_error (chans_of g) ci) as [c|] eqn:C; [|discriminate].
    intros E. exists ci, c. split; [reflexivity|]. split; [exact C|]. cbn [Nat.add] in E. congruence.
  - intros (ci & c & -> & -> & ->). reflexivity.
Qed.
Print Assumptions C84_layouts.

(** Every program that fits has samples, one for each SaveSample and AddSample. *)
Theorem C84_program : forall f2d d2f gs p, sizes_small gs -> bulk_ok f2d d2f gs [] p ->
  exists l, bulk_samples d2f (map prepare_cg gs) p = Ok l /\
    length l = length (filter (fun o => match o with BSave _ _ | BAdd _ _ => true | _ => false end) p).
Proof.
  intros f2d d2f gs p SM OK. destruct (bulk_start f2d d2f gs SM p OK) as (l & R & _). exists l. split; [exact R|].
  clear - R. unfold bulk_samples in R. fold (prepared_groups gs) in R. revert l R. generalize (prepared_groups gs). intros g. generalize (new_bufs g), (@nil bwriter).
  induction p as [|o p IH]; intros bufs ws l R; cbn [run_bulk] in R; [assert (l = []) as -> by congruence; reflexivity|].
  destruct o as [k o|k ts|k|w y v|w|w bytes|w ts]; cbn [filter length].
  - destruct (nth_error g k); [|discriminate R]. destruct (run_ops _ _ _ _); try discriminate R. cbn [bind] in R. eapply IH; eauto.
  - destruct (nth_error g k); [|discriminate R]. destruct (run_bulk _ _ _ _ _) as [l'| |] eqn:E; try discriminate R. cbn [bind] in R.
    assert (l = sample_of c ts (bufs k) :: l') as -> by congruence. cbn [length]. f_equal. eapply IH; eauto.
  - destruct (nth_error g k); [|discriminate R]. eapply IH; eauto.
  - destruct (nth_error ws w) as [x|]; [|discriminate R]. destruct (nth_error g (b_group x)); [|discriminate R]. destruct (nth_error (layouts _) y); [|discriminate R].
    destruct (set_value _ _ _); try discriminate R. cbn [bind] in R. eapply IH; eauto.
  - destruct (nth_error ws w); [|discriminate R]. eapply IH; eauto.
  - destruct (nth_error ws w); [|discriminate R]. eapply IH; eauto.
  - destruct (nth_error ws w) as [x|]; [|discriminate R]. destruct (nth_error g (b_group x)); [|discriminate R].
    destruct (run_bulk _ _ _ _ _) as [l'| |] eqn:E; try discriminate R. cbn [bind] in R.
    assert (l = sample_of c ts (b_buf x) :: l') as -> by congruence. cbn [length]. f_equal. eapply IH; eauto.
Qed.
Print Assumptions C84_program.

(* The facts the samples of a program have. *)
Lemma bulk_facts : forall f2d d2f gs p l, sizes_small gs -> NoDup (map g_record (prepared_groups gs)) -> bulk_ok f2d d2f gs [] p ->
  bulk_samples d2f (prepared_groups gs) p = Ok l ->
  Forall (fun s => exists k g, nth_error gs k = Some g /\ is_vlsd g = false /\ s_id s = g_record g /\
                       buf_ok g (s_rec s) /\ s_has s = false /\ s_vbuf s = [] /\ s_ts s < 2 ^ 63) l /\
  (forall j g n, nth_error gs j = Some g -> is_vlsd g = false ->
    match bulk_calls f2d gs p j n with
    | None => nth_error (of_group (prepare_cg g) l) n = None
    | Some ops => exists b, nth_error (of_group (prepare_cg g) l) n = Some (sample_of (prepare_cg g) (bulk_time f2d gs p j n) b) /\
        run_ops d2f (chans_of (prepare_cg g)) ops (new_bufs (prepared_groups gs) j) = Ok b /\
        Forall (op_ok d2f (chans_of g) (chans_of (prepare_cg g))) ops /\ bulk_time f2d gs p j n < 2 ^ 63
    end).
Proof.
  intros f2d d2f gs p l SM ND OK R. destruct (bulk_start f2d d2f gs SM p OK) as (l0 & R0 & F). assert (l0 = l) by congruence. subst l0. split.
  - clear - F SM. induction F as [|s [[k ts] ops] l x (g & b & K & V & -> & RO & FO & TL) F IH]; [constructor|]. constructor; [|exact IH].
    exists k, g. destruct (prepared g V) as (_ & ER & _). destruct (good_buf d2f gs SM k b ops g) as [_ BO]; [exists g; auto|exact K|].
    cbn [sample_of s_id s_rec s_has s_vbuf s_ts]. repeat (split; [assumption || reflexivity|]). exact TL.
  - intros j g n J V. pose proof (entries_group d2f gs l _ ND F j g J V) as G. unfold bulk_calls, bulk_time, bulk_sample.
    fold (prepared_groups gs). set (x := filter _ _) in *. clearbody x. destruct (nth_error x n) as [[[k ts] ops]|] eqn:X; cbn [option_map snd].
    + destruct (f2_nth_r _ _ _ _ _ G n _ X) as (s & S & (g1 & b & K & V1 & E & RO & FO & TL)).
      assert (KJ : g_record (prepare_cg g1) = g_record (prepare_cg g)).
      { apply nth_error_In in S. unfold of_group in S. apply filter_In in S. destruct S as [_ S]. apply N.eqb_eq in S. rewrite E in S. exact S. }
      assert (k = j) as ->.
      { apply (proj1 (NoDup_nth_error (map g_record (prepared_groups gs))) ND).
        - apply nth_error_Some. rewrite nth_error_map, (prep_nth gs k g1 K). discriminate.
        - rewrite !nth_error_map, (prep_nth gs k g1 K), (prep_nth gs j g J). cbn. congruence. }
      assert (g1 = g) as -> by congruence. exists b. rewrite E in S. auto.
    + destruct (nth_error (of_group (prepare_cg g) l) n) as [s|] eqn:S; [|reflexivity].
      destruct (f2_nth _ _ _ _ _ G n _ S) as (y & Y & _). congruence.
Qed.

(** A description of the application, prepared for writing; any program of SetChannelValue, SaveSample
    and data writer calls on its groups. The samples are written by any saves of the data group. In the
    finished file the observers of the reader show for every numeric channel and every sample the value
    set last in the buffer the sample was made from. *)
Theorem C84_file : forall h2d f2d d2f i h ops k d gs p l e, id_texts i -> id_numbers i -> hd_ok h -> calls_ok h ops -> in_turn ops ->
  nth_error (h_dgs h) k = Some d -> d_cgs d = map prepare_cg gs -> StreamSpec.dg_ok (dgroup_of d) -> In k (sources ops) -> sizes_small gs ->
  bulk_ok f2d d2f gs [] p -> bulk_samples d2f (d_cgs d) p = Ok l ->
  EncProofs.emitted (dgroup_of d) (fun _ => false) l (MeasSpec.saved k ops) e -> counters k ops = Some e ->
  exists m, bind (init_meas i h) (mrun ops) = Ok m /\
  forall x, N.of_nat (length (m_file m ++ x)) < 2 ^ 63 ->
  exists enough, forall fuel, (enough <= fuel)%nat ->
  exists h' d' blocks, read_file fuel (m_file m ++ x) = Ok (id_trimmed i, h') /\
    nth_error (h_dgs h') k = Some d' /\
    (forall inflate, group_data inflate (m_file m ++ x) d' = Some (Ok blocks)) /\
    values_shown h2d f2d d2f gs (bulk_calls f2d gs p) fuel d' blocks.
Proof.
  intros h2d f2d d2f i h ops k d gs p l e IT IN OK CO TU Ed EG DO K SM BO RP EM EC. rewrite EG in RP.
  destruct (bulk_facts f2d d2f gs p l SM (ids_nodup gs d EG DO) BO RP) as [PF PC].
  destruct (known_ok gs d l EG SM PF) as [F PL]. pose proof (known_calls d2f gs l _ _ PC) as SO.
  eapply file_values; eauto.
Qed.
Print Assumptions C84_file.

(** A whole measurement, as C80_measurement: the time masters have the times given to AddSample and
    SaveSample. *)
Theorem C84_measurement : forall h2d f2d d2f i h k d gs p off st per pre trim ops1 T ops2, id_texts i -> id_numbers i -> hd_ok h ->
  nth_error (h_dgs h) k = Some d -> d_cgs d = map prepare_cg gs -> StreamSpec.dg_ok (dgroup_of d) -> sizes_small gs ->
  (forall x, d2f x < 2 ^ 32) -> Forall (master_plain off) gs ->
  Forall WriterProofs.plain ops1 -> Forall WriterProofs.plain ops2 ->
  let all := WriterProofs.wsaves ops1 ++ WriterProofs.wsaves ops2 in
  bulk_ok f2d d2f gs [] p -> bulk_samples d2f (d_cgs d) p = Ok all ->
  (forall j g n, nth_error gs j = Some g -> is_vlsd g = false -> bulk_calls f2d gs p j n <> None -> time_fits off T g (bulk_time f2d gs p j n)) ->
  sorted_ts all -> (forall s, In s all -> T <= s_ts s + pre) -> (forall s, In s (WriterProofs.wsaves ops1) -> s_ts s <= T) ->
  0 < T -> T < 2 ^ 63 -> pre <= T ->
  (forall s, In s all -> exists s', retime d2f (d_cgs d) off T s = Ok s') /\
  exists n0, forall n, (n0 <= n)%nat ->
  let w := trun (dgroup_of d) (fun _ => false) st per (retimed d2f (d_cgs d) off) (WriterProofs.measurement ops1 T ops2 n) (winit pre trim) in
  forall ops, calls_ok h ops -> in_turn ops -> In k (sources ops) ->
  MeasSpec.saved k ops = u_out (w_u w) -> counters k ops = Some (u_enc (w_u w)) ->
  exists m, bind (init_meas i h) (mrun ops) = Ok m /\
  forall x, N.of_nat (length (m_file m ++ x)) < 2 ^ 63 ->
  exists enough, forall fuel, (enough <= fuel)%nat ->
  exists h' d' blocks, read_file fuel (m_file m ++ x) = Ok (id_trimmed i, h') /\
    nth_error (h_dgs h') k = Some d' /\
    (forall inflate, group_data inflate (m_file m ++ x) d' = Some (Ok blocks)) /\
    values_shown h2d f2d d2f gs (bulk_timed f2d off T gs p) fuel d' blocks.
Proof.
  intros h2d f2d d2f i h k d gs p off st per pre trim ops1 T ops2 IT IN OK Ed EG DO SM D MP P1 P2 all BO RP TF S B BT TP HT HP.
  rewrite EG in RP. destruct (bulk_facts f2d d2f gs p all SM (ids_nodup gs d EG DO) BO RP) as [PF PC].
  exact (known_measurement h2d f2d d2f i h k d gs (bulk_calls f2d gs p) (bulk_time f2d gs p) off st per pre trim ops1 T ops2
           IT IN OK Ed EG DO SM D MP P1 P2 PF PC TF S B BT TP HT HP).
Qed.
Print Assumptions C84_measurement.

(** A raw record of the size of the record is the next sample of the data writer byte for byte,
    whatever was done before. *)
Theorem C84_raw : forall f2d d2f gs p q w k g bytes ts l, sizes_small gs -> bulk_ok f2d d2f gs [] p ->
  nth_error (flat_map (fun o => match o with BNew k => [k] | _ => [] end) p) w = Some k -> nth_error gs k = Some g ->
  N.of_nat (length bytes) = record_bytes (chans_of g) ->
  bulk_samples d2f (map prepare_cg gs) (p ++ BRaw w bytes :: BAdd w ts :: q) = Ok l ->
  exists l1 l2 s, bulk_samples d2f (map prepare_cg gs) p = Ok l1 /\ l = l1 ++ s :: l2 /\
    s_rec s = bytes /\ s_ts s = ts /\ s_id s = g_record g.
Proof.
  intros f2d d2f gs p q w k g bytes ts l SM OK W K LN R.
  destruct (raw_added f2d d2f gs SM p q w k g bytes ts l OK W K LN R) as (l1 & l2 & A & B).
  exists l1, l2, (sample_of (prepare_cg g) ts bytes). split; [exact A|]. split; [exact B|]. split; [reflexivity|]. split; [reflexivity|].
  cbn [sample_of s_id]. unfold prepare_cg. destruct (is_vlsd g); [reflexivity|]. destruct (prepare_group (chans_of g)) as [[? ?] ?]. reflexivity.
Qed.
Print Assumptions C84_raw.

(** The samples of C80_witness, made with data writers: a value of another size and a raw record of
    another length do nothing; the third data writer takes the mark of the group's buffer with it. *)
Definition pb : list bop :=
  [BNew 0; BNew 1; BValue 0 0 (TU 2 1000); BValue 0 0 (TU 4 9); BRaw 0 [1; 2]; BAdd 0 5000000000; BValue 1 0 (TS 4 (-3)); BAdd 1 6000000000;
   BSet 0 (mkOp 1 (VU 8) false 0); BNew 0; BValue 2 0 (TU 2 7); BAdd 2 7500000000].
Lemma pb_ok : bulk_ok (fun x => x) d2f0 gsw [] pb.
Proof.
  assert (CW : forall w k g y v ci, forall ws : list nat, nth_error ws w = Some k -> nth_error gsw k = Some g -> layout_channel (prepare_cg g) y = Some ci ->
     (exists c0 c, nth_error (chans_of g) ci = Some c0 /\ nth_error (chans_of (prepare_cg g)) ci = Some c /\
        (takes c v = true -> numeric c0 /\ tval_fits (fun x => x) d2f0 c v)) ->
     exists k g ci c0 c, nth_error ws w = Some k /\ nth_error gsw k = Some g /\ layout_channel (prepare_cg g) y = Some ci /\
         nth_error (chans_of g) ci = Some c0 /\ nth_error (chans_of (prepare_cg g)) ci = Some c /\
         (takes c v = true -> numeric c0 /\ tval_fits (fun x => x) d2f0 c v)).
  { intros w k g y v ci ws A B C (c0 & c & H). exists k, g, ci, c0, c. intuition. }
  assert (U : forall n, n < 65536 -> forall ws : list nat, forall w, nth_error ws w = Some 0%nat -> exists k g ci c0 c, nth_error ws w = Some k /\ nth_error gsw k = Some g /\ layout_channel (prepare_cg g) 0 = Some ci /\
         nth_error (chans_of g) ci = Some c0 /\ nth_error (chans_of (prepare_cg g)) ci = Some c /\
         (takes c (TU 2 n) = true -> numeric c0 /\ tval_fits (fun x => x) d2f0 c (TU 2 n))).
  { intros n L ws w A. eapply (CW w 0%nat _ 0%nat); [exact A|reflexivity|vm_compute; reflexivity|]. eexists. eexists. split; [reflexivity|].
    split; [vm_compute; reflexivity|]. intros _. split; [split; [left; reflexivity|exact Logic.I]|exact L]. }
  unfold pb. cbn [bulk_ok app].
  split; [eexists; split; [reflexivity|vm_compute; reflexivity]|]. split; [eexists; split; [reflexivity|vm_compute; reflexivity]|].
  split; [apply U; reflexivity|]. split.
  { eapply (CW 0%nat 0%nat _ 0%nat); [reflexivity|reflexivity|vm_compute; reflexivity|]. eexists. eexists. split; [reflexivity|].
    split; [vm_compute; reflexivity|]. intros X. vm_compute in X. discriminate X. }
  split; [exists 0%nat; eexists; split; [reflexivity|]; split; [reflexivity|vm_compute; discriminate]|].
  split; [cbn; lia|]. split; [reflexivity|]. split.
  { eapply (CW 1%nat 1%nat _ 0%nat); [reflexivity|reflexivity|vm_compute; reflexivity|]. eexists. eexists. split; [reflexivity|].
    split; [vm_compute; reflexivity|]. intros _. split; [split; [left; reflexivity|exact Logic.I]|]. vm_compute. split; [discriminate|reflexivity]. }
  split; [cbn; lia|]. split; [reflexivity|]. split.
  { eexists. split; [reflexivity|]. split; [reflexivity|]. unfold op_ok. cbn [op_chan op_idx op_value].
    eexists. eexists. split; [reflexivity|]. split; [vm_compute; reflexivity|]. split; [split; [left; reflexivity|exact Logic.I]|]. split; [reflexivity|reflexivity]. }
  split; [eexists; split; [reflexivity|vm_compute; reflexivity]|]. split; [apply U; reflexivity|].
  split; [cbn; lia|]. split; [reflexivity|]. exact Logic.I.
Qed.
Lemma pb_samples : bulk_samples d2f0 (d_cgs dgw) pb = Ok samplesw.
Proof. vm_compute. reflexivity. Qed.

(** The remaining hypotheses are those of C80_witness. *)
Example C84_witness : hd_ok measw /\ StreamSpec.dg_ok (dgroup_of dgw) /\ sizes_small gsw /\ bulk_ok (fun x => x) d2f0 gsw [] pb /\
  bulk_samples d2f0 (d_cgs dgw) pb = Ok (WriterProofs.wsaves opsw1 ++ WriterProofs.wsaves opsw2) /\
  (forall j g n, nth_error gsw j = Some g -> is_vlsd g = false -> bulk_calls (fun x => x) gsw pb j n <> None ->
     time_fits (fun _ => false) startw g (bulk_time (fun x => x) gsw pb j n)) /\
  map (fun n => bulk_calls (fun x => x) gsw pb 0 n) [0; 1; 2]%nat =
    [Some [mkOp 1 (VU 1000) true 0]; Some [mkOp 1 (VU 8) false 0; mkOp 1 (VU 7) false 0]; None] /\
  map (fun n => bulk_time (fun x => x) gsw pb 0 n) [0; 1]%nat = [5000000000; 7500000000] /\
  map y_index (layouts (prepare_cg (nth 0 gsw (mkCg 0 0 0 0 0 0 [] None None [])))) = [1%nat] /\
  exists l, bulk_samples d2f0 (d_cgs dgw) ([BNew 1] ++ BRaw 0 [9; 8; 7; 6] :: BAdd 0 5 :: []) = Ok l.
Proof.
  destruct C80_witness as (A1 & A2 & A3 & A4 & A5 & A6 & A7 & A8 & A9 & A10 & _). split; [exact A1|]. split; [exact A3|]. split; [exact A4|].
  split; [apply pb_ok|]. split; [rewrite A7; apply pb_samples|]. split.
  { intros j g n J V C. destruct j as [|[|j]]; [| |destruct j; discriminate J].
    - assert (g = nth 0 gsw g) as -> by (cbn [nth_error gsw] in J; unfold gsw; cbn [nth]; congruence).
      intros _ mi c M C1. vm_compute in M. assert (mi = 0%nat) as -> by congruence. vm_compute in C1.
      match type of C1 with Some ?y = _ => assert (c = y) as -> by congruence end. discriminate.
    - assert (g = nth 1 gsw g) as -> by (cbn [nth_error gsw] in J; unfold gsw; cbn [nth]; congruence).
      intros _ mi c M. vm_compute in M. discriminate M. }
  split; [vm_compute; reflexivity|]. split; [vm_compute; reflexivity|]. split; [vm_compute; reflexivity|].
  eexists. vm_compute. reflexivity.
Qed.

(* A group with one channel. *)
Definition one_channel (dtype bits flags : N) : list cg :=
  [mkCg 1 0 0 46 0 0 [65] None None [mkCn (chw 0 0 dtype bits flags [117]) (map CArr [])]].
Definition first_value (dtype bits flags : N) (p : list bop) : option (res (value * bool)) :=
  match bulk_samples d2f0 (map prepare_cg (one_channel dtype bits flags)) p, map prepare_cg (one_channel dtype bits flags) with
  | Ok (s :: _), [g] => option_map (fun c => get_channel (fun x => x) (fun x => x) c (s_rec s) 0) (nth_error (chans_of g) 0)
  | _, _ => None
  end.

(** SetValue does not convert: a double given to an unsigned channel of eight bytes is stored by its
    bits, 1.0 is read as 4607182418800017408. *)
Theorem C84_kind_refuted : first_value 0 64 0 [BNew 0; BValue 0 0 (TD (bits_of_dbl (of_Z 1))); BAdd 0 5] = Some (Ok (VU 4607182418800017408, true)).
Proof. vm_compute. reflexivity. Qed.
Print Assumptions C84_kind_refuted.

(** A value of another size is dropped without a word: an int given to a channel of 16 bits leaves the
    value before it. *)
Theorem C84_size_refuted : first_value 0 16 0 [BNew 0; BValue 0 0 (TU 2 3); BValue 0 0 (TU 4 5); BAdd 0 5] = Some (Ok (VU 3, true)).
Proof. vm_compute. reflexivity. Qed.
Print Assumptions C84_size_refuted.

(** SetValue does not make a value valid: if the channel was marked invalid when the data writer was
    made, every value set with it is shown as invalid. *)
Theorem C84_invalid_refuted : forall n, n < 65536 ->
  first_value 0 16 2 [BSet 0 (mkOp 0 (VU 0) false 0); BNew 0; BValue 0 0 (TU 2 n); BAdd 0 5] = Some (Ok (VU n, false)).
Proof.
  intros n L. unfold first_value.
  assert (E : map prepare_cg (one_channel 0 16 2) = [mkCg 1 0 0 46 2 1 [65] None None [mkCn (chw 0 0 0 16 2 [117]) (map CArr [])]]) by (vm_compute; reflexivity).
  rewrite E. clear E. set (c := mkChan FixedLength UnsignedLe 0 0 16 1 true 0 2 0).
  assert (R : bulk_samples d2f0 [mkCg 1 0 0 46 2 1 [65] None None [mkCn (chw 0 0 0 16 2 [117]) (map CArr [])]]
      [BSet 0 (mkOp 0 (VU 0) false 0); BNew 0; BValue 0 0 (TU 2 n); BAdd 0 5] = Ok [mkS 5 1 (le_bytes 2 n ++ [1]) false []]) by reflexivity.
  rewrite R. clear R. change (nth_error (chans_of _) 0) with (Some c). cbn [option_map s_rec]. f_equal.
  assert (P : placed c 3) by (constructor; vm_compute; auto; intuition discriminate).
  destruct (ChannelProps.C05_set_get (fun x => x) (fun x => x) d2f0 c [0; 0; 1] (VU n) false 0) as (rec & S1 & _ & _ & S4);
    [repeat constructor|exact P|reflexivity|exact L|].
  assert (Q : rec = le_bytes 2 n ++ [1]).
  { assert (S5 : set_channel d2f0 c [0; 0; 1] (VU n) false 0 = Ok (le_bytes 2 n ++ [1])) by reflexivity. congruence. }
  rewrite Q in S4. exact S4.
Qed.
Print Assumptions C84_invalid_refuted.

(** A data writer does not follow its group: what SetChannelValue sets after the data writer was made is
    not in its samples. *)
Theorem C84_snapshot_refuted : first_value 0 16 0 [BSet 0 (mkOp 0 (VU 6) true 0); BNew 0; BSet 0 (mkOp 0 (VU 7) true 0); BAdd 0 5] = Some (Ok (VU 6, true)).
Proof. vm_compute. reflexivity. Qed.
Print Assumptions C84_snapshot_refuted.

(** A data writer made before InitMeasurement, when the sample buffer of the group is empty, ignores
    every value and gives samples without bytes, though the records of the group have some. *)
Theorem C84_early_refuted : exists gs g, map prepare_cg gs = [g] /\ g_data g = 2 /\
  forall v ts, (0 < size_of v)%nat ->
  run_bulk d2f0 (map prepare_cg gs) [BValue 0 0 v; BAdd 0 ts] (new_bufs (map prepare_cg gs)) [mkBw 0 []] = Ok [mkS ts 1 [] false []].
Proof.
  exists (one_channel 0 16 0), (mkCg 1 0 0 46 2 0 [65] None None [mkCn (chw 0 0 0 16 0 [117]) (map CArr [])]).
  assert (E : map prepare_cg (one_channel 0 16 0) = [mkCg 1 0 0 46 2 0 [65] None None [mkCn (chw 0 0 0 16 0 [117]) (map CArr [])]]) by (vm_compute; reflexivity).
  split; [exact E|]. split; [reflexivity|]. rewrite E. intros v ts L. cbn [run_bulk nth_error b_group b_buf].
  change (layouts _) with [mkLay 0 0 2 UnsignedLe]. cbv beta iota.
  assert (S : set_value (mkLay 0 0 2 UnsignedLe) v [] = Ok []).
  { unfold set_value. cbn [y_bytes y_byte y_dtype]. destruct (2 =? N.of_nat (size_of v)); reflexivity. }
  rewrite S. reflexivity.
Qed.
Print Assumptions C84_early_refuted.
