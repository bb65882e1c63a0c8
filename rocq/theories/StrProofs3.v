(** What is read from the cells, the samples of a program, and the file. *)
From Verif Require Import Base BlockModel ConvModel CcModel StreamModel StreamSpec QueueModel QueueSpec EncProofs ObsModel ObsSpec ObsProofs
  ChannelModel ChannelSpec BitProofs ChannelProofs SetProofs HistProofs VlsdProofs TextModel TextProofs TimeModel
  MetaModel MetaSpec IdentModel IdentSpec MeasModel MeasSpec MeasStream MeasProps WriterModel WriterProofs
  ValueModel ValueSpec ValueProofs ValueProofs2 ValueProofs5 ValueProofs6 ValueProofs7 BulkProofs3 StrModel StrSpec StrProofs StrProofs2.
From Verif Require QueueProps.
Local Open Scope N_scope.
Local Open Scope list_scope.

Lemma text_always : forall k w, exists t, text_of k w = Ok t.
Proof.
  intros k w. unfold text_of, utf16_to_utf8. destruct k as [|[[?|?|]|[?|?|]|]]; eauto;
    match goal with |- context [match ?u with _ => _ end] => destruct u; [eauto|] end; apply any_wide.
Qed.

(* ------------------------------------------------------------------ *)
(** ** Reading a cell *)

Lemma read_vector : forall l k c0 rec, nth_error l k = Some c0 -> record_bytes l < 2 ^ 28 -> chars c0 -> N.of_nat (length rec) = record_bytes l ->
  let p := placed_chan l k c0 in get_vector p rec = (snd (cell p 0 rec), as_chars p (fst (cell p 0 rec))).
Proof.
  intros l k c0 rec N0 SZ CH LR p. destruct (chars_placed l k c0 N0 SZ (or_introl CH)) as (TP & ES & EL & EO & DT & _). fold p in TP, ES, EL, EO, DT.
  rewrite <- LR in TP. unfold get_vector, get_text, as_chars, cell. rewrite EO, ES. unfold size_in. cbn [fst snd]. rewrite (get_fixed p [] rec TP). cbn [bind].
  destruct CH as (_ & D & _). rewrite <- DT in D.
  destruct (ch_dtype p); cbn [is_chars is_bytes string_form] in *; try destruct D; cbn [bind]; try reflexivity;
    match goal with |- context [text_of ?k ?w] => destruct (text_always k w) as [t ->]; reflexivity end.
Qed.
Lemma hex_digits : forall w, bytes_ok w -> hex_text w = concat (map (fun b => [nth (N.to_nat (b / 16)) digits16 0; nth (N.to_nat (b mod 16)) digits16 0]) w).
Proof.
  intros w B. unfold hex_text. rewrite flat_map_concat_map. f_equal. apply map_ext_in. intros b I. unfold bytes_ok in B. rewrite Forall_forall in B. specialize (B b I). assert (B2 : b < 256) by exact B. clear B.
  assert (D : forall n, n < 16 -> hex_digit n = nth (N.to_nat n) digits16 0).
  { intros n L. destruct n as [|p]; [reflexivity|]. do 4 (destruct p as [p|p|]; try reflexivity; try lia). }
  rewrite (D (b / 16)) by (apply N.div_lt_upper_bound; lia). rewrite (D (b mod 16)) by (apply N.mod_lt; lia). reflexivity.
Qed.
Lemma read_string : forall l k c0 rec, nth_error l k = Some c0 -> record_bytes l < 2 ^ 28 -> chars c0 -> bytes_ok rec ->
  N.of_nat (length rec) = record_bytes l ->
  let p := placed_chan l k c0 in get_string p rec = (snd (cell p 0 rec), as_string p (fst (cell p 0 rec))).
Proof.
  intros l k c0 rec N0 SZ CH BR LR p. unfold get_string. pose proof (read_vector l k c0 rec N0 SZ CH LR) as R. cbv zeta in R. fold p in R. rewrite R. f_equal. unfold as_string.
  destruct (chars_placed l k c0 N0 SZ (or_introl CH)) as (_ & _ & _ & _ & DT & _). fold p in DT. destruct CH as (_ & D & _). rewrite <- DT in D.
  assert (BC : bytes_ok (fst (cell p 0 rec))).
  { unfold cell. cbn [fst]. unfold slice. apply Forall_forall. intros x I. unfold bytes_ok in BR. rewrite Forall_forall in BR. apply BR.
    rewrite <- (firstn_skipn (elem_off p 0) rec). apply in_or_app. right. rewrite <- (firstn_skipn (elem_size p) (skipn (elem_off p 0) rec)). apply in_or_app. left. exact I. }
  rewrite <- (hex_digits _ BC). unfold as_chars. destruct (ch_dtype p); try destruct D; reflexivity.
Qed.
Lemma read_ns : forall z l k c0 rec, nth_error l k = Some c0 -> record_bytes l < 2 ^ 28 -> dates c0 -> N.of_nat (length rec) = record_bytes l ->
  let p := placed_chan l k c0 in get_ns z p rec = (snd (cell p 0 rec), as_ns z p (fst (cell p 0 rec))).
Proof.
  intros z l k c0 rec N0 SZ CH LR p. destruct (chars_placed l k c0 N0 SZ (or_intror CH)) as (TP & ES & EL & EO & DT & _ & _ & D7 & D6). fold p in TP, ES, EL, EO, DT, D7, D6.
  rewrite <- LR in TP. pose proof (text_fit _ _ TP) as FT. unfold get_ns, as_ns, cell. rewrite EO, ES. unfold size_in. cbn [fst snd].
  assert (SL : forall n, ch_bits p / 8 = n -> rd_block rec (ch_byte p) n = Some (slice (N.to_nat (ch_byte p)) (N.to_nat (ch_bits p / 8)) rec) /\
    N.of_nat (length (slice (N.to_nat (ch_byte p)) (N.to_nat (ch_bits p / 8)) rec)) = n).
  { intros n E. rewrite E in *. unfold rd_block. rewrite (proj2 (N.leb_le _ _)) by exact FT. split; [reflexivity|]. rewrite slice_length; lia. }
  destruct CH as (_ & [D|D] & _).
  - destruct (SL 7) as [S1 S2]; [rewrite (D7 D); reflexivity|]. rewrite DT, D, S1. unfold date_of_canopen. rewrite S2. change (7 <? 7) with false. cbv iota. reflexivity.
  - destruct (SL 6) as [S1 S2]; [rewrite (D6 D); reflexivity|]. rewrite DT, D, S1. unfold time_of_canopen. rewrite S2. change (6 <? 6) with false. cbv iota. reflexivity.
Qed.

(* ------------------------------------------------------------------ *)
(** ** The samples of a program *)

Lemma run_sops_app : forall z d2f l a b buf, run_sops z d2f l (a ++ b) buf = bind (run_sops z d2f l a buf) (run_sops z d2f l b).
Proof.
  intros z d2f l. induction a as [|o a IH]; intros b buf; [reflexivity|]. cbn [app run_sops]. destruct (run_sop z d2f l o buf); cbn [bind]; auto.
Qed.

Lemma text_of_group : forall z d2f gs p bufs l, NoDup (map g_record gs) -> run_text z d2f gs p bufs = Ok l ->
  forall k g, nth_error gs k = Some g -> forall n,
  match xcalls p k n with
  | Some ops => exists b, run_sops z d2f (chans_of g) ops (bufs k) = Ok b /\ nth_error (of_group g l) n = Some (sample_of g (xtime p k n) b)
  | None => nth_error (of_group g l) n = None
  end.
Proof.
  intros z d2f gs. induction p as [|[k' o|k' ts] p IH]; intros bufs l ND R k g K n; cbn [run_text] in R.
  - assert (l = []) as -> by congruence. destruct n; reflexivity.
  - destruct (nth_error gs k') as [g'|] eqn:K'; [|discriminate R].
    destruct (run_sop z d2f (chans_of g') o (bufs k')) as [b| |] eqn:RO; try discriminate R. cbn [bind] in R.
    pose proof (IH _ _ ND R k g K n) as A. cbn [xcalls xtime]. destruct (xcalls p k n) as [ops|] eqn:CB; cbn [option_map]; [|exact A].
    destruct A as (b1 & A & B). unfold put_buf in A.
    destruct (Nat.eqb_spec k' k) as [->|NE].
    + rewrite Nat.eqb_refl in A. assert (g' = g) as -> by congruence. exists b1. split; [|exact B]. cbn [run_sops]. rewrite RO. exact A.
    + destruct (Nat.eqb_spec k k') as [E|_]; [congruence|]. exists b1. auto.
  - destruct (nth_error gs k') as [g'|] eqn:K'; [|discriminate R].
    destruct (run_text z d2f gs p bufs) as [l0| |] eqn:R0; try discriminate R. cbn [bind] in R.
    assert (l = sample_of g' ts (bufs k') :: l0) as -> by congruence. clear R. cbn [xcalls xtime].
    destruct (Nat.eqb_spec k' k) as [->|NE].
    + assert (g' = g) as -> by congruence.
      unfold of_group at 1. cbn [filter sample_of s_id]. rewrite N.eqb_refl. destruct n as [|n].
      * exists (bufs k). split; reflexivity.
      * cbn [nth_error]. unfold of_group at 1. cbn [filter sample_of s_id]. rewrite N.eqb_refl. cbn [nth_error]. apply (IH _ _ ND R0 k g K n).
    + rewrite (of_group_other gs k k' g g') by auto. apply (IH _ _ ND R0 k g K n).
Qed.

Lemma text_runs : forall z d2f gs, sizes_small gs -> forall p, Forall (xcall_ok d2f gs) p -> forall bufs,
  (forall k g, nth_error gs k = Some g -> is_vlsd g = false -> buf_ok g (bufs k)) ->
  exists l, run_text z d2f (prepared_groups gs) p bufs = Ok l /\
    Forall (fun s => exists k g, nth_error gs k = Some g /\ is_vlsd g = false /\ s_id s = g_record g /\
                       buf_ok g (s_rec s) /\ s_has s = false /\ s_vbuf s = [] /\ s_ts s < 2 ^ 63) l.
Proof.
  intros z d2f gs SM. induction p as [|o p IH]; intros F bufs BO.
  - exists []. split; [reflexivity|constructor].
  - inversion F as [|? ? C F']; subst. destruct o as [k o|k ts]; destruct C as (g & K & V & C); cbn [run_text].
    + unfold prepared_groups at 1. rewrite nth_error_map, K. cbn [option_map].
      destruct (prepared g V) as (P & _). pose proof (BO k g K V) as [B1 B2].
      assert (SB : record_bytes (chans_of g) < 2 ^ 28).
      { unfold sizes_small in SM. rewrite Forall_forall in SM. apply SM; [eapply nth_error_In; eauto|exact V]. }
      destruct (sops_history z (fun x => x) (fun x => x) d2f _ _ _ _ SB P [o] (bufs k)) as (b & R & X1 & X2 & _); auto.
      cbn [run_sops] in R. destruct (run_sop z d2f (chans_of (prepare_cg g)) o (bufs k)) as [b1| |]; try discriminate R. cbn [bind] in R |- *. assert (b1 = b) as -> by congruence.
      apply IH; auto. intros k' g' K' V'. unfold put_buf. destruct (Nat.eqb_spec k' k) as [->|NE]; auto.
      assert (g' = g) as -> by congruence. split; auto.
    + destruct (IH F' bufs BO) as (l & R & S). unfold prepared_groups at 1. rewrite nth_error_map, K. cbn [option_map].
      rewrite R. cbn [bind]. eexists. split; [reflexivity|]. constructor; auto. destruct (prepared g V) as (_ & E & _).
      exists k, g. cbn [sample_of s_id s_rec s_has s_vbuf s_ts]. repeat (split; auto); apply (BO k g K V).
Qed.

Lemma xcalls_ok : forall d2f gs p, Forall (xcall_ok d2f gs) p -> forall k g n ops, nth_error gs k = Some g -> xcalls p k n = Some ops ->
  Forall (sop_ok d2f (chans_of g) (chans_of (prepare_cg g))) ops /\ xtime p k n < 2 ^ 63.
Proof.
  intros d2f gs. induction p as [|[k' o|k' ts] p IH]; intros F k g n ops K C; cbn [xcalls xtime] in *; [discriminate C| |];
    inversion F as [|? ? XX F']; subst; destruct XX as (g' & K' & V & X).
  - destruct (xcalls p k n) as [ops'|] eqn:C'; [|discriminate C]. cbn [option_map] in C. destruct (IH F' k g n ops' K C') as [A B]. split; [|exact B].
    destruct (Nat.eqb_spec k' k) as [->|NE]; [|assert (ops = ops') as -> by congruence; exact A].
    assert (ops = o :: ops') as -> by congruence. assert (g' = g) as -> by congruence. constructor; auto.
  - destruct (Nat.eqb_spec k' k) as [->|NE]; [|eapply IH; eauto]. destruct n as [|n]; [|eapply IH; eauto].
    assert (ops = []) as -> by congruence. split; [constructor|exact X].
Qed.

(* ------------------------------------------------------------------ *)
(** ** The file *)

(** What the samples must be: made by the calls [calls], with the numbers [numbers]. *)
Definition texts_of (z : zone) (d2f : N -> N) (gs : list cg) (numbers : nat -> nat -> option (list setop)) (calls : nat -> nat -> option (list sop))
    (l : list sample) : Prop :=
  forall j g, nth_error gs j = Some g -> is_vlsd g = false -> forall n,
    match calls j n with
    | None => nth_error (of_group (prepare_cg g) l) n = None /\ numbers j n = None
    | Some ops => exists s ops', nth_error (of_group (prepare_cg g) l) n = Some s /\
        run_sops z d2f (chans_of (prepare_cg g)) ops' (new_bufs (prepared_groups gs) j) = Ok (s_rec s) /\
        Forall (sop_ok d2f (chans_of g) (chans_of (prepare_cg g))) ops' /\
        numbers j n = Some (nums ops') /\ forall c ci, held z c ops' ci = held z c ops ci
    end.

Lemma file_texts : forall z h2d f2d d2f i h ops k d l e gs numbers calls, id_texts i -> id_numbers i -> hd_ok h -> calls_ok h ops -> in_turn ops ->
  nth_error (h_dgs h) k = Some d -> d_cgs d = prepared_groups gs -> StreamSpec.dg_ok (dgroup_of d) -> In k (sources ops) -> sizes_small gs ->
  Forall (sample_ok (dgroup_of d)) l -> Forall plain_sample l -> texts_of z d2f gs numbers calls l ->
  EncProofs.emitted (dgroup_of d) none l (MeasSpec.saved k ops) e -> counters k ops = Some e ->
  exists m, bind (init_meas i h) (mrun ops) = Ok m /\
  forall x, N.of_nat (length (m_file m ++ x)) < 2 ^ 63 ->
  exists enough, forall fuel, (enough <= fuel)%nat ->
  exists h' d' blocks, read_file fuel (m_file m ++ x) = Ok (id_trimmed i, h') /\
    nth_error (h_dgs h') k = Some d' /\
    (forall inflate, group_data inflate (m_file m ++ x) d' = Some (Ok blocks)) /\
    all_shown z h2d f2d d2f gs numbers calls fuel d' blocks.
Proof.
  intros z h2d f2d d2f i h ops k d l e gs numbers calls IT IN OK CO TU Ed EG DO K SM F PL SO EM EC.
  destruct (file_observed i h ops k d l e IT IN OK CO TU Ed DO K F PL EM EC) as (m & E & R). exists m. split; [exact E|].
  intros x LX. destruct (R x LX) as [n RF]. clear R. exists n. intros fuel LF.
  destruct (RF fuel LF) as (h' & p & blocks & EF & Ek & CNT & GD & OBS). clear RF.
  set (d' := dg_form (dg_after ops k p d)) in *. exists h', d', blocks. split; [exact EF|]. split; [exact Ek|]. split; [exact GD|].
  (* any channel, any observer of its group *)
  assert (ANY : forall j g ci c0, nth_error gs j = Some g -> is_vlsd g = false -> nth_error (chans_of g) ci = Some c0 ->
    let pc := placed_chan (chans_of g) ci c0 in
    exists g' c', nth_error (d_cgs d') j = Some g' /\ nth_error (g_cns g') ci = Some c' /\ g_record g' = g_record g /\ chan_of g' c' = pc /\
      kept c0 pc /\ record_bytes (chans_of g) < 2 ^ 28 /\ (exists nd ni, prepare_group (chans_of g) = (chans_of (prepare_cg g), nd, ni) /\ new_bufs (prepared_groups gs) j = fresh_buffer nd ni) /\
      (forall n, calls j n <> None <-> N.of_nat n < g_samples g') /\ (forall n, numbers j n <> None <-> calls j n <> None) /\
      forall T (t0 : T) (ch : ObsModel.chan T) rv ids g0 q, q <> 0 -> In q (do_list g0) -> In (g_record g) (ids q) ->
        h_kind ch = KFixed -> h_rid ch = g_record g' -> h_asize ch <= record_bytes (chans_of g) ->
        let og := init_fast (needs_of ids) (map g_record (d_cgs d')) g0 in
        let answer := fun _ _ => true in
        exists evs,
          read_data (dgroup_of d') (subscribing (needs_of ids) g0) (fun ev => fst (notify_obs (noted answer) og ev [])) fuel blocks = Some (Ok evs) /\
          forall n idx ops, calls j n = Some ops -> idx < h_asize ch ->
            exists s ops', numbers j n = Some (nums ops') /\ (forall c ci, held z c ops' ci = held z c ops ci) /\
              run_sops z d2f (chans_of (prepare_cg g)) ops' (new_bufs (prepared_groups gs) j) = Ok (s_rec s) /\
              Forall (sop_ok d2f (chans_of g) (chans_of (prepare_cg g))) ops' /\
              get_sample t0 ch (run_obs ch rv (calls_of q (all_calls answer og evs)) (cobs_new t0 ch (g_samples g'))) (N.of_nat n) idx
              = h_dec ch (s_rec s) idx).
  { intros j g ci c0 Hg V Hc pc.
    assert (SB : record_bytes (chans_of g) < 2 ^ 28).
    { unfold sizes_small in SM. rewrite Forall_forall in SM. apply SM; [eapply nth_error_In; eauto|exact V]. }
    destruct (prepared g V) as (P & ER & V' & LN). destruct (prepare_group_eq _ SB) as (l2 & P2 & _ & NTH).
    assert (E2 : l2 = chans_of (prepare_cg g)) by congruence. subst l2. clear P2.
    pose proof (NTH _ _ Hc) as NP. fold pc in NP.
    destruct (kept_nth _ _ _ _ _ _ P Hc) as (pc' & NP' & KP). assert (pc' = pc) by congruence. subst pc'. clear NP'.
    clearbody pc. pose proof NP as NQ. unfold chans_of in NQ. rewrite nth_error_map in NQ.
    destruct (nth_error (g_cns (prepare_cg g)) ci) as [c1|] eqn:C1; [|discriminate NQ]. cbn [option_map] in NQ.
    assert (CH : chan_of (prepare_cg g) c1 = pc) by congruence. clear NQ.
    set (g' := cg_form (counted (counters k ops) (prepare_cg g))). set (c' := cn_form c1). exists g', c'.
    assert (G1 : nth_error (d_cgs d') j = Some g').
    { unfold d'. cbn [dg_form dg_after d_cgs]. rewrite map_map, nth_error_map, EG. unfold prepared_groups. rewrite nth_error_map, Hg. reflexivity. }
    assert (G2 : g_record g' = g_record g).
    { unfold g'. rewrite EC. cbn [cg_form counted g_record]. exact ER. }
    assert (CC : chan_of g' c' = pc) by (unfold g', c'; rewrite form_chan by exact V'; exact CH).
    assert (INR : In (g_record g) (map g_record (d_cgs d))).
    { rewrite EG. rewrite <- ER. apply in_map. unfold prepared_groups. apply in_map. eapply nth_error_In; eauto. }
    assert (NOF : g_samples g' = N.of_nat (length (of_group (prepare_cg g) l))).
    { unfold of_group. rewrite ER, <- CNT by exact INR. unfold nof_of.
      assert (ND : NoDup (map g_record (d_cgs d'))).
      { pose proof (dg_ids _ (alike_ok _ _ DO (alike_after ops k p d))) as ND. fold d' in ND. cbn [dgroup_of StreamModel.d_groups] in ND. rewrite map_map in ND. exact ND. }
      pose proof (find_group _ _ _ ND G1) as FG. rewrite G2 in FG. cbn [dgroup_of StreamModel.d_groups]. clear - FG.
      induction (d_cgs d') as [|a r IH]; [discriminate FG|]. cbn [find map] in *. cbn [MeasModel.group_of StreamModel.g_id].
      destruct (g_record a =? g_record g); [|auto]. assert (a = g') as -> by congruence. reflexivity. }
    split; [exact G1|]. split; [unfold g', c'; rewrite EC; cbn [cg_form counted g_cns]; rewrite nth_error_map, C1; reflexivity|].
    split; [exact G2|]. split; [exact CC|]. split; [exact KP|]. split; [exact SB|].
    split. { destruct (new_ok gs j g SM Hg V) as [_ EB]. eexists _, _. split; [exact P|exact EB]. }
    pose proof (SO j g Hg V) as SJ. split; [|split].
    - intros n0. specialize (SJ n0). rewrite NOF. destruct (calls j n0) as [o|].
      + destruct SJ as (s & _ & NS & _). split; [intros _|discriminate]. assert (n0 < length (of_group (prepare_cg g) l))%nat by (apply nth_error_Some; congruence). lia.
      + split; [congruence|]. intros L. exfalso. destruct SJ as [SJ _]. apply nth_error_None in SJ. lia.
    - intros n0. specialize (SJ n0). destruct (calls j n0) as [o|].
      + destruct SJ as (s & ops' & _ & _ & _ & -> & _). split; discriminate.
      + destruct SJ as [_ ->]. split; auto.
    - intros T t0 ch rv ids g0 q Q1 Q2 Q3 HK HR HA og answer.
      assert (AS : forall s, In s l -> s_id s = g_record g -> (N.to_nat (h_asize ch) <= length (s_rec s))%nat).
      { intros s Hs Es. rewrite Forall_forall in F. destruct (F s Hs) as ((gg & IG & EI & VV & LL) & _).
        assert (LR : N.of_nat (length (s_rec s)) = record_bytes (chans_of g)).
        { cbn [dgroup_of StreamModel.d_groups] in IG. rewrite EG in IG. apply in_map_iff in IG. destruct IG as (g1 & <- & IG).
          assert (g1 = prepare_cg g) as ->.
          { assert (ND : NoDup (map g_record (d_cgs d))).
            { pose proof (dg_ids _ DO) as ND. cbn [dgroup_of StreamModel.d_groups] in ND. rewrite map_map in ND. exact ND. }
            rewrite EG in ND. destruct (In_nth_error _ _ IG) as [k1 N1].
            pose proof (find_group _ _ _ ND N1) as F1.
            assert (N2 : nth_error (prepared_groups gs) j = Some (prepare_cg g)) by (unfold prepared_groups; rewrite nth_error_map, Hg; reflexivity).
            pose proof (find_group _ _ _ ND N2) as F2. cbn [MeasModel.group_of StreamModel.g_id] in EI. rewrite ER in F2. rewrite EI, Es in F1. congruence. }
          rewrite LL. unfold StreamModel.rec_size. cbn [MeasModel.group_of StreamModel.g_data StreamModel.g_inval].
          rewrite prepared_sizes by auto. rewrite N2Nat.id. unfold w32. apply N.mod_small. change (2 ^ 28) with 268435456 in SB. change (2 ^ 32) with 4294967296. lia. }
        lia. }
      destruct (OBS T t0 ch rv ids g0 q Q1 Q2) as (evs & RD & SH).
      + rewrite HR, G2. exact Q3.
      + rewrite HR, G2. exact INR.
      + left. rewrite HK. discriminate.
      + rewrite HR, G2. exact AS.
      + exists evs. split; [exact RD|]. intros n0 idx o CL Hi. specialize (SJ n0). rewrite CL in SJ. destruct SJ as (s & ops' & NS & RO & FO & NM & HE).
        exists s, ops'. split; [exact NM|]. split; [exact HE|]. split; [exact RO|]. split; [exact FO|].
        assert (NN : nof_of (dgroup_of d') (h_rid ch) = g_samples g').
        { rewrite HR, G2, CNT by exact INR. rewrite NOF. unfold of_group. rewrite ER. reflexivity. }
        rewrite NN in SH. unfold og, answer. change (fun (_ : ptr) (_ : event) => true) with yes.
        rewrite (SH n0 s idx).
        * unfold of_record. rewrite HK. reflexivity.
        * rewrite HR, G2. unfold of_group in NS. rewrite ER in NS. exact NS.
        * exact Hi. }
  clear OBS CNT SO.
  (* texts, bytes and dates *)
  assert (HELD : forall A (a0 : A) read (P : chan -> Prop) show,
    (forall c0, P c0 -> chars c0 \/ dates c0) ->
    (forall ls k c0 rec, nth_error ls k = Some c0 -> record_bytes ls < 2 ^ 28 -> P c0 -> bytes_ok rec -> N.of_nat (length rec) = record_bytes ls ->
       read (placed_chan ls k c0) rec = (snd (cell (placed_chan ls k c0) 0 rec), show (placed_chan ls k c0) (fst (cell (placed_chan ls k c0) 0 rec)))) ->
    held_shown a0 read P show z gs calls fuel d' blocks).
  { intros A a0 read P show PCD RD0 j g ci c0 Hg V Hc HP. pose proof (PCD _ HP) as CD.
    destruct (ANY j g ci c0 Hg V Hc) as (g' & c' & G1 & G2 & G3 & CC & KP & SB & (nd & ni & PG & NB) & NC & _ & OB). exists g', c'.
    destruct (chars_placed _ _ _ Hc SB CD) as (TP & ES & EL & EO & DT & DI & DB & _).
    split; [exact G1|]. split; [exact G2|]. split; [exact G3|]. rewrite CC. split; [exact DT|]. split; [exact DI|].
    split. { intros IC. apply DB. destruct CD as [CD|(_ & [CD|CD] & _)]; [exact CD|rewrite CD in IC; destruct IC|rewrite CD in IC; destruct IC]. }
    split; [exact NC|]. intros rv ids g0 q Q1 Q2 Q3 og ch answer.
    destruct (OB A a0 ch rv ids g0 q Q1 Q2 Q3) as (evs & RD & SH).
    - reflexivity.
    - reflexivity.
    - unfold ch, obs_with. cbn [h_asize]. pose proof (text_fit _ _ TP). destruct (tp_bits _ _ TP) as [B8 _].
      assert (1 <= ch_bits (placed_chan (chans_of g) ci c0) / 8) by (apply N.div_le_lower_bound; lia). lia.
    - exists evs. split; [exact RD|]. intros n0 o CL.
      destruct (SH n0 0 o CL) as (s & ops' & NM & HE & RO & FO & GS); [reflexivity|].
      unfold og, answer. rewrite GS. unfold ch, obs_with. cbn [h_dec]. rewrite CC. rewrite NB in RO.
      destruct (sops_fresh z h2d f2d d2f _ _ _ _ SB PG ops' FO) as (b & RB & BB & LB & _ & HC). assert (b = s_rec s) as -> by congruence.
      rewrite RD0 by auto. rewrite (HC ci c0 Hc CD), HE. destruct (held z (placed_chan (chans_of g) ci c0) o ci) as [w ok]. reflexivity. }
  split; [|split; [|split]].
  - intros j g ci c0 Hg V Hc NU.
    destruct (ANY j g ci c0 Hg V Hc) as (g' & c' & G1 & G2 & G3 & CC & (KD & KA & _) & SB & (nd & ni & PG & NB) & NC & NNC & OB). exists g', c'.
    set (pc := placed_chan (chans_of g) ci c0) in *.
    assert (PP : placed pc (record_bytes (chans_of g))) by (apply placed_chan_placed; auto).
    split; [exact G1|]. split; [exact G2|]. split; [exact G3|]. rewrite CC. split; [exact KA|]. split; [exact KD|].
    split. { intros n0. rewrite NNC. apply NC. }
    intros rv ids g0 q Q1 Q2 Q3 og ch answer.
    destruct (OB value (VU 0) ch rv ids g0 q Q1 Q2 Q3) as (evs & RD & SH).
    + reflexivity.
    + reflexivity.
    + unfold ch, obs_chan. cbn [h_asize]. rewrite CC. pose proof (pl_data _ _ PP) as D1. pose proof (pl_cg _ _ PP) as D2.
      assert (DB : 1 <= data_bytes pc).
      { pose proof (pl_size _ _ PP) as Sz. unfold num_size in Sz. unfold data_bytes. destruct (ch_dtype pc); try destruct Sz as [->|[->|[->| ->]]]; try destruct Sz as [->| ->]; vm_compute; intuition discriminate. }
      assert (AE : ch_array pc <= data_bytes pc * elems pc) by (clear - DB; unfold elems; nia). lia.
    + exists evs. split; [exact RD|]. intros n0 idx o CL Hi.
      destruct (calls j n0) as [o0|] eqn:CJ; [|exfalso; assert (numbers j n0 <> None) as X by congruence; apply NNC in X; congruence].
      destruct (SH n0 idx o0 CJ) as (s & ops' & NM & HE & RO & FO & GS).
      { unfold ch, obs_chan. cbn [h_asize]. rewrite CC, KA. exact Hi. }
      unfold og, answer. rewrite GS. unfold ch, obs_chan. cbn [h_dec]. rewrite CC. rewrite NB in RO.
      destruct (sops_fresh z h2d f2d d2f _ _ _ _ SB PG ops' FO) as (b & RB & _ & LB & HN & _). assert (b = s_rec s) as -> by congruence.
      assert (o = nums ops') as -> by congruence.
      pose proof (HN ci c0 idx Hc NU) as HV. cbv zeta in HV. fold pc in HV. rewrite HV by (unfold elems; lia). destruct (value_after f2d d2f pc (nums ops') ci idx) as [v ok]. reflexivity.
  - apply HELD; [tauto|]. intros. apply read_vector; auto.
  - apply HELD; [tauto|]. intros. apply read_string; auto.
  - apply HELD; [tauto|]. intros. apply read_ns; auto.
Qed.
