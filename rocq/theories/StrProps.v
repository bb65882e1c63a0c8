(** C85: texts, byte arrays and CANopen dates written into channels of fixed length, mixed with numbers,
    are shown by a reader of the file as they were set. *)
From Verif Require Import Base BlockModel BlockSpec ConvModel ConvSpec CcModel StreamModel StreamSpec QueueModel QueueSpec EncProofs ObsModel ObsSpec ObsProofs
  ChannelModel ChannelSpec HistProofs VlsdProofs TextModel TextSpec TextProofs TextProps TimeModel TimeSpec TimeProofs3 TimeProps MetaModel MetaSpec MetaProps IdentModel IdentSpec
  MeasModel MeasSpec MeasStream MeasProps CompProps WriterModel WriterProofs
  ValueModel ValueSpec ValueProofs ValueProofs2 ValueProofs5 ValueProofs6 ValueProofs7 ValueProps BulkProofs3 StrModel StrSpec StrProofs StrProofs2 StrProofs3 StrProofs4.
Local Open Scope N_scope.
Local Open Scope list_scope.

(** Every program that fits has samples, one for each SaveSample. *)
Theorem C85_program : forall z d2f gs p, sizes_small gs -> Forall (xcall_ok d2f gs) p ->
  exists l, text_samples z d2f (map prepare_cg gs) p = Ok l /\
    length l = length (filter (fun o => match o with XSave _ _ => true | _ => false end) p).
Proof.
  intros z d2f gs p SM XO. destruct (text_runs z d2f gs SM p XO (new_bufs (prepared_groups gs))) as (l & R & _).
  - intros k g K V. apply (new_ok gs k g SM K V).
  - exists l. split; [exact R|]. clear - R. revert l R. generalize (new_bufs (prepared_groups gs)). generalize (prepared_groups gs). intros g.
    induction p as [|[k o|k ts] p IH]; intros bufs l R; cbn [run_text filter] in *.
    + assert (l = []) as -> by congruence. reflexivity.
    + destruct (nth_error g k); [|discriminate R]. destruct (run_sop _ _ _ _ _); try discriminate R. cbn [bind] in R. eapply IH; eauto.
    + destruct (nth_error g k); [|discriminate R]. destruct (run_text z d2f g p bufs) as [l0| |] eqn:E; try discriminate R. cbn [bind] in R.
      assert (l = sample_of c ts (bufs k) :: l0) as -> by congruence. cbn [length]. f_equal. eapply IH; eauto.
Qed.
Print Assumptions C85_program.

(** A description of the application, prepared for writing, and any program of SetChannelValue calls with
    numbers, texts, byte arrays and dates and of SaveSample calls. The samples are written by any saves of
    the data group. In the finished file the observers show for every channel and every sample what was set
    last: the number, the text or bytes, the date. *)
Theorem C85_file : forall z h2d f2d d2f i h ops k d gs p l e, id_texts i -> id_numbers i -> hd_ok h -> calls_ok h ops -> in_turn ops ->
  nth_error (h_dgs h) k = Some d -> d_cgs d = map prepare_cg gs -> StreamSpec.dg_ok (dgroup_of d) -> In k (sources ops) -> sizes_small gs ->
  Forall (xcall_ok d2f gs) p -> text_samples z d2f (d_cgs d) p = Ok l ->
  EncProofs.emitted (dgroup_of d) (fun _ => false) l (MeasSpec.saved k ops) e -> counters k ops = Some e ->
  exists m, bind (init_meas i h) (mrun ops) = Ok m /\
  forall x, N.of_nat (length (m_file m ++ x)) < 2 ^ 63 ->
  exists enough, forall fuel, (enough <= fuel)%nat ->
  exists h' d' blocks, read_file fuel (m_file m ++ x) = Ok (id_trimmed i, h') /\
    nth_error (h_dgs h') k = Some d' /\
    (forall inflate, group_data inflate (m_file m ++ x) d' = Some (Ok blocks)) /\
    all_shown z h2d f2d d2f gs (xnums p) (xcalls p) fuel d' blocks.
Proof.
  intros z h2d f2d d2f i h ops k d gs p l e IT IN OK CO TU Ed EG DO K SM XO RP EM EC. rewrite EG in RP.
  pose proof (text_all z d2f gs l SM p XO RP) as PF. destruct (known_ok gs d l EG SM PF) as [F PL].
  pose proof (text_texts z d2f gs d l EG DO SM p XO RP) as SO. eapply file_texts; eauto.
Qed.
Print Assumptions C85_file.

(** A whole measurement, as C80_measurement: the time masters have the times given to SaveSample, and the
    texts, byte arrays and dates are shown too. *)
Theorem C85_measurement : forall z h2d f2d d2f i h k d gs p off st per pre trim ops1 T ops2, id_texts i -> id_numbers i -> hd_ok h ->
  nth_error (h_dgs h) k = Some d -> d_cgs d = map prepare_cg gs -> StreamSpec.dg_ok (dgroup_of d) -> sizes_small gs ->
  (forall x, d2f x < 2 ^ 32) -> Forall (master_plain off) gs ->
  Forall WriterProofs.plain ops1 -> Forall WriterProofs.plain ops2 ->
  let all := WriterProofs.wsaves ops1 ++ WriterProofs.wsaves ops2 in
  Forall (xcall_ok d2f gs) p -> text_samples z d2f (d_cgs d) p = Ok all ->
  (forall j g n, nth_error gs j = Some g -> is_vlsd g = false -> xcalls p j n <> None -> time_fits off T g (xtime p j n)) ->
  sorted_ts all -> (forall s, In s all -> T <= s_ts s + pre) -> (forall s, In s (WriterProofs.wsaves ops1) -> s_ts s <= T) ->
  0 < T -> T < 2 ^ 63 -> pre <= T ->
  (forall s, In s all -> exists s', retime d2f (d_cgs d) off T s = Ok s') /\
  exists n0, forall n, (n0 <= n)%nat ->
  let w := trun (dgroup_of d) (fun _ => false) st per (retimed d2f (d_cgs d) off) (WriterProofs.measurement ops1 T ops2 n) (winit pre trim) in
  forall ops, calls_ok h ops -> in_turn ops -> In k (sources ops) ->
  MeasSpec.saved k ops = u_out (w_u w) -> counters k ops = Some (u_enc (w_u w)) ->
  exists m, bind (init_meas i h) (mrun ops) = Ok m /\
  forall x, N.of_nat (length (m_file m ++ x)) < 2 ^ 63 ->
  exists enough, forall fuel, (enough <= fuel)%nat ->
  exists h' d' blocks, read_file fuel (m_file m ++ x) = Ok (id_trimmed i, h') /\
    nth_error (h_dgs h') k = Some d' /\
    (forall inflate, group_data inflate (m_file m ++ x) d' = Some (Ok blocks)) /\
    all_shown z h2d f2d d2f gs (xtimed off T gs p) (xcalls p) fuel d' blocks.
Proof.
  intros z h2d f2d d2f i h k d gs p off st per pre trim ops1 T ops2 IT IN OK Ed EG DO SM D MP P1 P2 all XO RP.
  pose proof EG as EG'. rewrite EG' in RP. intros. eapply text_measurement; eauto.
Qed.
Print Assumptions C85_measurement.

(* ------------------------------------------------------------------ *)
(** ** What the shown values are *)

Lemma before_pad : forall s n, ~ In 0 s -> (length s < n)%nat -> before_nul (pad n s) = s.
Proof.
  intros s n NZ L. unfold pad. replace n with (length s + S (n - length s - 1))%nat at 1 by lia.
  rewrite firstn_app_2. replace n with (S (n - 1))%nat at 2 by lia. cbn [repeat firstn].
  apply c_string_before. apply c_cut. exact NZ.
Qed.

(** A text without zero bytes that leaves room for the zero at its end comes back as it was: any bytes in
    UTF-8 channels, 7 bit characters in the channels for ASCII. *)
Theorem C85_text_partial : forall c s, ~ In 0 s -> (length s < size_in c)%nat ->
  ch_dtype c = StrUtf8 \/ (ch_dtype c = StrAscii /\ Forall (fun b => b < 128) s) -> as_chars c (bytes_of_text c s) = s.
Proof.
  intros c s NZ L D.
  assert (F : firstn (size_in c - 1) s = s) by (apply firstn_all2; lia).
  assert (LA : Forall (fun b => b < 128) s -> latin1_to_utf8 s = s).
  { clear. intros A. induction A as [|b s B A IH]; [reflexivity|]. unfold latin1_to_utf8 in *. cbn [map concat] in *. rewrite IH.
    unfold latin1_char. rewrite (proj2 (N.ltb_lt _ _)) by exact B. reflexivity. }
  unfold as_chars, bytes_of_text. destruct D as [D|[D A]]; rewrite D; cbn [is_string string_form]; rewrite F; unfold text_of; rewrite before_pad by assumption; auto.
Qed.
Print Assumptions C85_text_partial.

(** Byte arrays of the size of the channel come back as they were, and GetChannelValue<std::string> tells
    different ones apart. *)
Theorem C85_bytes_partial : forall c s, is_chars (ch_dtype c) -> is_string (ch_dtype c) = false -> length s = size_in c -> as_chars c (pad (size_in c) s) = s.
Proof.
  intros c s IC IS L. rewrite pad_same by exact L. unfold as_chars. destruct (ch_dtype c); try discriminate IS; try destruct IC; reflexivity.
Qed.
Print Assumptions C85_bytes_partial.
Theorem C85_hex : forall c a b, is_string (ch_dtype c) = false -> bytes_ok a -> bytes_ok b -> as_string c a = as_string c b -> a = b.
Proof.
  intros c a b IS. unfold as_string. rewrite IS. clear IS c. revert b. induction a as [|x a IH]; intros [|y b] A B E; [reflexivity|discriminate E|discriminate E|].
  inversion A as [|? ? X A']; subst. inversion B as [|? ? Y B']; subst. cbn [map concat app] in E. injection E as E1 E2 E3.
  f_equal; [|apply IH; assumption]. clear - X Y E1 E2.
  assert (D : forall m n, m < 16 -> n < 16 -> nth (N.to_nat m) digits16 0 = nth (N.to_nat n) digits16 0 -> m = n).
  { intros m n M N0 H. apply N2Nat.inj. apply (proj1 (NoDup_nth digits16 0)); auto.
    - unfold digits16. repeat constructor; cbn; intuition discriminate.
    - change (length digits16) with 16%nat. lia.
    - change (length digits16) with 16%nat. lia. }
  assert (X2 : x < 256) by exact X. assert (Y2 : y < 256) by exact Y.
  apply D in E1; try (apply N.div_lt_upper_bound; lia). apply D in E2; try (apply N.mod_lt; lia).
  rewrite (N.div_mod x 16), (N.div_mod y 16) by lia. rewrite E1, E2. reflexivity.
Qed.
Print Assumptions C85_hex.

(** UTF-16 texts written as byte arrays come back, when every character has one unit and the rest of the
    channel is nothing or room for a zero unit. *)
Theorem C85_utf16_partial : forall c (big : bool) cps, ch_dtype c = (if big then StrUtf16Be else StrUtf16Le) ->
  ~ In 0 cps -> Forall scalar cps -> Forall (fun cp => cp < 2 ^ 16) cps ->
  let s := bytes16 big (utf16_text cps) in
  length s = size_in c \/ (length s + 2 <= size_in c)%nat -> as_chars c (pad (size_in c) s) = utf8_text cps.
Proof.
  intros c big cps D NZ SC L s LS.
  assert (RP : forall a b, (b <= a)%nat -> firstn b (repeat 0 a) = repeat 0 b).
  { intros a b. revert a. induction b as [|b IH]; intros [|a] H; try reflexivity; try lia. cbn [repeat firstn]. f_equal. apply IH. lia. }
  assert (P : exists t, pad (size_in c) s = s ++ t /\ (t = [] \/ exists r, t = 0 :: 0 :: r)).
  { destruct LS as [E|G].
    - exists []. rewrite pad_same by exact E. rewrite app_nil_r. auto.
    - exists (0 :: 0 :: repeat 0 (size_in c - length s - 2)). split; [|right; eauto]. unfold pad.
      rewrite firstn_app, firstn_all2 by lia. f_equal. rewrite RP by lia.
      change (0 :: 0 :: repeat 0 (size_in c - length s - 2)) with (repeat 0 (S (S (size_in c - length s - 2)))). f_equal. lia. }
  destruct P as (t & -> & TT). unfold as_chars. rewrite D. pose proof (C45_channel_text_partial big cps t NZ SC L TT) as X. fold s in X.
  destruct big; cbn [string_form]; rewrite X; reflexivity.
Qed.
Print Assumptions C85_utf16_partial.

(** Dates and times come back to the millisecond: dates from 1970 to 2069 of the local calendar, in every
    zone with an offset of whole minutes; times from 1984 on for 65536 days. *)
Theorem C85_date : forall z c ns y m d,
  let t := (sec_of ns + z_std z + (if z_dst z (sec_of ns) then 3600 else 0))%Z in
  ch_dtype c = CanOpenDate -> (z_std z mod 60 = 0)%Z -> (0 <= t)%Z -> calendar (Z.to_nat (t / 86400)) = (y, m, d) -> (y <= 2069)%Z -> ns < 2 ^ 64 ->
  as_ns z c (bytes_of_ns z c ns) = ns - ns mod 1000000.
Proof.
  intros z c ns y m d t D Z0 T0 C Y L. unfold as_ns, bytes_of_ns. rewrite D. rewrite (C49_date z ns y m d Z0 T0 C Y L). reflexivity.
Qed.
Print Assumptions C85_date.
Theorem C85_time : forall z c ns, ch_dtype c = CanOpenTime -> (0 <= sec_1984 z)%Z ->
  (0 <= Z.of_N ns / 1000000 - sec_1984 z * 1000 < 65536 * 86400000)%Z -> ns < 2 ^ 64 ->
  as_ns z c (bytes_of_ns z c ns) = ns - ns mod 1000000.
Proof.
  intros z c ns D S B L. unfold as_ns, bytes_of_ns. rewrite D. destruct (time_roundtrip z ns S B L) as [_ ->]. reflexivity.
Qed.
Print Assumptions C85_time.

(* ------------------------------------------------------------------ *)
(** ** A concrete case *)

(** A time master, a text of six bytes for ASCII with an invalidation bit, an array of three bytes, a
    CANopen date, a counter and a UTF-16 text of four bytes. *)
Definition gsx : list cg :=
  [mkCg 1 0 0 46 0 0 [65] None None
     [mkCn (chw 2 1 4 64 0 [116]) (map CArr []); mkCn (chw 0 0 6 48 2 [115]) (map CArr []); mkCn (chw 0 0 10 24 0 [98]) (map CArr []);
      mkCn (chw 0 0 13 0 0 [100]) (map CArr []); mkCn (chw 0 0 0 16 0 [117]) (map CArr []); mkCn (chw 0 0 8 32 0 [119]) (map CArr [])]].
Definition dgx : dg := mkDg 1 None 0 (map prepare_cg gsx).
Definition measx : hd := set_dgs meas1 [dgx].
Definition px : list xop :=
  [XSet 0 (SText 1 [72; 101; 106] true); XSet 0 (SBytes 2 [1; 2; 3] true); XSet 0 (SNs 3 1583000998123456789 true); XSet 0 (SNum (mkOp 4 (VU 1000) true 0));
   XSet 0 (SBytes 5 [228; 0] true); XSave 0 5000000000;
   XSet 0 (SText 1 [79; 75] false); XSet 0 (SBytes 2 [255; 0; 17] true); XSet 0 (SNum (mkOp 4 (VU 7) true 0)); XSave 0 7500000000].
Definition samplesx : list sample :=
  match text_samples ex_zone d2f0 (d_cgs dgx) px with Ok l => l | _ => [] end.
Definition opsx1 : list wop := [OSave (nth 0 samplesx (mkS 0 0 [] false [])); OTick].
Definition opsx2 : list wop := [OTick; OSave (nth 1 samplesx (mkS 0 0 [] false [])); OTick].

Lemma measx_ok : hd_ok measx.
Proof.
  assert (PT : forall c, c <> 0 -> is_space c = false -> plain_text [c]).
  { intros c A W. split; [intros [X|[]]; auto|intros _; split; exact W]. }
  destruct meas1_ok as (A1 & A2 & A3 & A4 & A5 & A6 & A7). unfold hd_ok.
  repeat (split; [assumption|]). constructor; [|constructor].
  assert (CH : forall h, (exists a b c d e f g n, h = mkCnh a b c 0 d e f g 0 0 0 0 0 0 0 [n] None None None [] (0, 0, 0) None /\
     a < 2 ^ 8 /\ b < 2 ^ 8 /\ c < 2 ^ 8 /\ d < 2 ^ 32 /\ e < 2 ^ 32 /\ f < 2 ^ 32 /\ g < 2 ^ 32 /\ n <> 0 /\ is_space n = false) -> cnh_ok h).
  { intros h (a & b & c & d & e & f & g & n & -> & H). unfold cnh_ok, source_ok, u8, u16, u32, u64, text_ok, comment_ok.
    cbn [n_type n_sync n_dtype n_bitoff n_byteoff n_bits n_flags n_invalid n_precision n_rmin n_rmax n_lmin n_lmax n_emin n_emax n_name n_unit n_md n_si n_attach n_defx n_conv].
    repeat match goal with |- _ /\ _ => split end; try (intuition; fail); try reflexivity; try (constructor; fail); try exact Logic.I.
    all: repeat constructor. }
  assert (P0 : plain_text []) by (split; [intros []|intros X; congruence]).
  unfold dg_ok, dgx. cbn [d_idsize d_md d_link d_cgs]. split; [reflexivity|]. split; [reflexivity|]. split; [exact Logic.I|].
  match goal with |- Forall _ ?l => let v := eval vm_compute in l in change l with v end.
  constructor; [|constructor]; unfold cg_ok; cbn [g_record g_samples g_flags g_separator g_data g_inval g_name g_si g_md g_cns];
    repeat match goal with |- _ /\ _ => split end; try reflexivity; try exact Logic.I; try (apply PT; [discriminate|reflexivity]).
  repeat (constructor; [apply (cn_arrays _ []); try constructor; apply CH; repeat eexists; try discriminate; reflexivity|]). constructor.
Qed.
Lemma dgx_ok : StreamSpec.dg_ok (dgroup_of dgx).
Proof.
  constructor.
  - discriminate.
  - vm_compute. repeat constructor; intros X; cbn in X; decompose [or] X; auto; discriminate.
  - vm_compute. auto.
  - intros g [<-|[]] _; vm_compute; reflexivity.
  - intros X. vm_compute in X. discriminate.
  - intros g _ X. vm_compute in X. discriminate.
Qed.
Lemma px_ok : Forall (xcall_ok d2f0 gsx) px.
Proof.
  assert (SV : forall ts, ts < 2 ^ 63 -> xcall_ok d2f0 gsx (XSave 0 ts)) by (intros ts L; eexists; split; [reflexivity|]; split; [reflexivity|exact L]).
  assert (NU : forall u, u < 65536 -> xcall_ok d2f0 gsx (XSet 0 (SNum (mkOp 4 (VU u) true 0)))).
  { intros u L. eexists. split; [reflexivity|]. split; [reflexivity|]. unfold sop_ok, op_ok. cbn [op_chan op_idx op_value].
    eexists. eexists. split; [reflexivity|]. split; [vm_compute; reflexivity|]. split; [split; [left; reflexivity|exact Logic.I]|]. split; [reflexivity|exact L]. }
  assert (TX : forall s v, bytes_ok s -> xcall_ok d2f0 gsx (XSet 0 (SText 1 s v))).
  { intros s v B. eexists. split; [reflexivity|]. split; [reflexivity|]. split; [|exact B]. eexists. split; [reflexivity|].
    split; [reflexivity|]. split; [exact Logic.I|]. split; [vm_compute; discriminate|]. split; [vm_compute; discriminate|reflexivity]. }
  assert (BY : forall s v, bytes_ok s -> xcall_ok d2f0 gsx (XSet 0 (SBytes 2 s v))).
  { intros s v B. eexists. split; [reflexivity|]. split; [reflexivity|]. split; [|exact B]. eexists. eexists. split; [reflexivity|]. split; [vm_compute; reflexivity|]. left.
    split; [reflexivity|]. split; [exact Logic.I|]. split; [vm_compute; discriminate|]. split; [vm_compute; discriminate|reflexivity]. }
  assert (BW : forall s v, bytes_ok s -> xcall_ok d2f0 gsx (XSet 0 (SBytes 5 s v))).
  { intros s v B. eexists. split; [reflexivity|]. split; [reflexivity|]. split; [|exact B]. eexists. eexists. split; [reflexivity|]. split; [vm_compute; reflexivity|]. left.
    split; [reflexivity|]. split; [exact Logic.I|]. split; [vm_compute; discriminate|]. split; [vm_compute; discriminate|reflexivity]. }
  assert (NS : forall ns v, xcall_ok d2f0 gsx (XSet 0 (SNs 3 ns v))).
  { intros ns v. eexists. split; [reflexivity|]. split; [reflexivity|]. eexists. split; [reflexivity|].
    split; [reflexivity|]. split; [left; reflexivity|]. vm_compute. discriminate. }
  unfold px. repeat (constructor; [first [apply SV; reflexivity|apply NU; reflexivity|apply TX; repeat constructor|apply BY; repeat constructor|apply BW; repeat constructor|apply NS]|]). constructor.
Qed.

Example C85_witness : hd_ok measx /\ nth_error (h_dgs measx) 0 = Some dgx /\ StreamSpec.dg_ok (dgroup_of dgx) /\ sizes_small gsx /\
  (forall x, d2f0 x < 2 ^ 32) /\ Forall (master_plain (fun _ => false)) gsx /\ Forall (xcall_ok d2f0 gsx) px /\
  text_samples ex_zone d2f0 (d_cgs dgx) px = Ok (WriterProofs.wsaves opsx1 ++ WriterProofs.wsaves opsx2) /\
  Forall WriterProofs.plain opsx1 /\ Forall WriterProofs.plain opsx2 /\
  (forall j g n, nth_error gsx j = Some g -> is_vlsd g = false -> xcalls px j n <> None -> time_fits (fun _ => false) startw g (xtime px j n)) /\
  sorted_ts samplesx /\ (forall s, In s samplesx -> startw <= s_ts s + 2000000000) /\ (forall s, In s (WriterProofs.wsaves opsx1) -> s_ts s <= startw) /\
  map s_rec samplesx =
    [repeat 0 8 ++ [72; 101; 106; 0; 0; 0] ++ [1; 2; 3] ++ [11; 227; 29; 148; 221; 2; 20] ++ [232; 3] ++ [228; 0; 0; 0] ++ [0];
     repeat 0 8 ++ [79; 75; 0; 0; 0; 0] ++ [255; 0; 17] ++ [11; 227; 29; 148; 221; 2; 20] ++ [7; 0] ++ [228; 0; 0; 0] ++ [1]] /\
  (forall n ops, xcalls px 0 n = Some ops -> exists c1 c2 c3 c5, map (fun ci => nth_error (chans_of (prepare_cg (nth 0 gsx (mkCg 0 0 0 0 0 0 [] None None [])))) ci) [1; 2; 3; 5]%nat = [Some c1; Some c2; Some c3; Some c5] /\
     (as_chars c1 (fst (held ex_zone c1 ops 1)), snd (held ex_zone c1 ops 1)) = nth n [([72; 101; 106], true); ([79; 75], false)] ([], true) /\
     as_string c2 (fst (held ex_zone c2 ops 2)) = nth n [[48; 49; 48; 50; 48; 51]; [70; 70; 48; 48; 49; 49]] [] /\
     as_ns ex_zone c3 (fst (held ex_zone c3 ops 3)) = 1583000998123000000 /\
     as_chars c5 (fst (held ex_zone c5 ops 5)) = [195; 164]).
Proof.
  split; [apply measx_ok|]. split; [reflexivity|]. split; [apply dgx_ok|]. split; [repeat constructor|].
  split; [intros x; apply N.mod_lt; discriminate|]. split.
  { constructor; [|constructor]; intros _ _ mi M; vm_compute in M.
    assert (mi = 0%nat) as -> by congruence. repeat eexists; try reflexivity. right. left. reflexivity. }
  split; [apply px_ok|]. split; [vm_compute; reflexivity|]. split; [repeat constructor|]. split; [repeat constructor|]. split.
  { intros [|j] g n Hg V L; [|destruct j; discriminate Hg].
    assert (g = nth 0 gsx g) as -> by (cbn [nth_error gsx] in Hg; unfold gsx; cbn [nth]; congruence).
    intros _ mi c M C. vm_compute in M. assert (mi = 0%nat) as -> by congruence. vm_compute in C.
    match type of C with Some ?y = _ => assert (c = y) as -> by congruence end. discriminate. }
  assert (E : samplesx = samplesx) by reflexivity. unfold samplesx at 2 in E.
  match type of E with _ = ?t => let v := eval vm_compute in t in assert (E2 : t = v) by (vm_compute; reflexivity); rewrite E2 in E; clear E2 end.
  split; [rewrite E; cbn; split; [discriminate|exact Logic.I]|]. split; [rewrite E; intros s [<-|[<-|[]]]; vm_compute; discriminate|].
  split; [intros s [<-|[]]; vm_compute; discriminate|]. split; [rewrite E; reflexivity|].
  intros n ops X. destruct n as [|[|n]]; [| |exfalso; destruct n; discriminate X];
    (eexists _, _, _, _; split; [vm_compute; reflexivity|]; vm_compute in X;
     match type of X with Some ?y = _ => assert (ops = y) as -> by congruence end;
     split; [vm_compute; reflexivity|]; split; [vm_compute; reflexivity|]; split; vm_compute; reflexivity).
Qed.

(* ------------------------------------------------------------------ *)
(** ** What is missing *)

Definition is_number (t : dtype) : Prop :=
  match t with UnsignedLe | UnsignedBe | SignedLe | SignedBe | FloatLe | FloatBe => True | _ => False end.
Definition chan_text (t : dtype) (bytes : N) : chan := mkChan FixedLength t 0 0 (8 * bytes) 1 false 0 bytes 0.

(** Texts with other than 7 bit characters do not come back from StringAscii channels: SetChannelValue
    stores the UTF-8 bytes as they are, the reader takes them for Latin-1. *)
Theorem C85_latin1_refuted : ~ (forall c s, ch_dtype c = StrAscii -> ~ In 0 s -> (length s < size_in c)%nat ->
  (exists cps, Forall scalar cps /\ s = utf8_text cps) -> as_chars c (bytes_of_text c s) = s).
Proof.
  intros H. assert (X : as_chars (chan_text StrAscii 8) (bytes_of_text (chan_text StrAscii 8) [195; 164]) = [195; 164]).
  { apply H; [reflexivity|intros [X|[X|[]]]; discriminate|vm_compute; lia|]. exists [228]. split; [constructor; [left; reflexivity|constructor]|reflexivity]. }
  vm_compute in X. discriminate.
Qed.
Print Assumptions C85_latin1_refuted.

(** No text comes back from the UTF-16 channels: SetChannelValue stores the UTF-8 bytes as they are; the
    reader takes two of them for one character ("Hi" is shown as one Chinese character). *)
Theorem C85_utf16_refuted : as_chars (chan_text StrUtf16Le 8) (bytes_of_text (chan_text StrUtf16Le 8) [72; 105]) = utf8_text [26952] /\
  (forall s b, s = [b] -> 0 < b -> b < 128 -> as_chars (chan_text StrUtf16Be 8) (bytes_of_text (chan_text StrUtf16Be 8) s) <> s).
Proof.
  split; [vm_compute; reflexivity|]. intros s b -> P L E.
  assert (A : forall n, (n < 128)%nat -> (0 < n)%nat -> as_chars (chan_text StrUtf16Be 8) (bytes_of_text (chan_text StrUtf16Be 8) [N.of_nat n]) <> [N.of_nat n]).
  { intros n N1 N2 X. assert (H : forallb (fun n => negb (if list_eq_dec N.eq_dec (as_chars (chan_text StrUtf16Be 8) (bytes_of_text (chan_text StrUtf16Be 8) [N.of_nat n])) [N.of_nat n] then true else false)) (seq 1 127) = true)
      by (vm_compute; reflexivity).
    rewrite forallb_forall in H. specialize (H n ltac:(apply in_seq; lia)). destruct (list_eq_dec _ _ _) as [_|NE]; [discriminate H|]. auto. }
  apply (A (N.to_nat b)); [lia|lia|]. rewrite N2Nat.id. exact E.
Qed.
Print Assumptions C85_utf16_refuted.

(** A text that is too long is cut without a word, and is still valid; the cut may be inside a character:
    "aä" in a UTF-8 channel of three bytes. *)
Theorem C85_cut_refuted : exists s, s = utf8_text [97; 228] /\
  let c := chan_text StrUtf8 3 in
  set_string c [0; 0; 0] s true = Ok [97; 195; 0] /\ get_string c [97; 195; 0] = (true, [97; 195]) /\
  forall cps, Forall scalar cps -> utf8_text cps <> [97; 195].
Proof.
  exists [97; 195; 164]. split; [reflexivity|]. split; [vm_compute; reflexivity|]. split; [vm_compute; reflexivity|].
  intros cps F E.
  assert (W : utf8_to_wide32 [97; 195] = Ok cps).
  { apply from_utf8; [rewrite <- E; constructor; rewrite E; intros [X|[X|[]]]; discriminate|exact F]. }
  vm_compute in W. assert (cps = [97; 192]) as -> by congruence. vm_compute in E. discriminate E.
Qed.
Print Assumptions C85_cut_refuted.

(** The length of a byte array is not kept: a shorter one comes back with zeros up to the size of the
    channel. *)
Theorem C85_length_refuted : forall c s, ch_dtype c = ByteArray -> (length s < size_in c)%nat ->
  as_chars c (pad (size_in c) s) <> s /\ as_chars c (pad (size_in c) s) = as_chars c (pad (size_in c) (s ++ [0])).
Proof.
  intros c s D L. unfold as_chars. rewrite D. cbn [string_form].
  assert (PL : length (pad (size_in c) s) = size_in c) by apply pad_length.
  split; [intros E; rewrite E in PL; lia|]. unfold pad. rewrite <- app_assoc. cbn [app].
  rewrite !firstn_app, !firstn_all2 by lia. f_equal.
  replace (0 :: repeat 0 (size_in c)) with (repeat 0 (S (size_in c))) by reflexivity.
  assert (RP : forall a b, (b <= a)%nat -> firstn b (repeat 0 a) = repeat 0 b).
  { intros a b. revert a. induction b as [|b IH]; intros [|a] H; try reflexivity; try lia. cbn [repeat firstn]. f_equal. apply IH. lia. }
  rewrite !RP by lia. reflexivity.
Qed.
Print Assumptions C85_length_refuted.

(** A byte array for a number, or a text for a date, is dropped; without an invalidation bit nothing
    tells: the record stays as it was. *)
Theorem C85_dropped_refuted : forall c buf s valid, ch_invalid c = false -> ch_type c <> VariableLength ->
  (is_number (ch_dtype c) -> set_vector c buf s valid = Ok buf) /\ (is_date (ch_dtype c) -> set_string c buf s valid = Ok buf).
Proof.
  intros c buf s valid I V. assert (SV : set_valid c buf false 0 = buf) by (unfold set_valid; rewrite I; reflexivity).
  unfold set_vector, set_string, fixed_only. split; intros D; destruct (ch_type c); try congruence; destruct (ch_dtype c); try (destruct D; fail); try (destruct D; discriminate); rewrite ?SV; reflexivity.
Qed.
Print Assumptions C85_dropped_refuted.
