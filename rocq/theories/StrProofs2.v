(** Histories of calls with texts, byte arrays and dates. *)
From Verif Require Import Base BlockModel StreamModel QueueModel ObsModel ChannelModel ChannelSpec BitProofs ChannelProofs SetProofs HistProofs VlsdProofs
  TextModel TimeModel MetaModel MeasModel ValueModel ValueSpec ValueProofs ValueProofs6 StrModel StrSpec StrProofs.
Local Open Scope N_scope.
Local Open Scope list_scope.

Section History.
Context (z : zone) (h2d f2d d2f : N -> N) (l l' : list chan) (nd ni : N).
Context (SZ : record_bytes l < 2 ^ 28) (PG : prepare_group l = (l', nd, ni)).
Notation getc := (get_channel h2d f2d).

Lemma prepared_nth : forall k c, nth_error l k = Some c -> nth_error l' k = Some (placed_chan l k c).
Proof.
  destruct (prepare_group_eq l SZ) as (l2 & P2 & _ & NTH). assert (l2 = l') as -> by congruence. exact NTH.
Qed.

(** What one call does. *)
Definition effect (o : sop) (ci : nat) (c0 : chan) (idx : N) (w : list N) (valid : bool) : Prop :=
  let p := placed_chan l ci c0 in
  match o with
  | SNum o => numeric c0 /\ ci = op_chan o /\ idx = op_idx o /\ valid = op_valid o /\
      decode_value f2d p w = as_stored f2d d2f p (op_value o)
  | _ => (chars c0 \/ dates c0) /\ idx = 0 /\ put_by z p ci o = Some (w, valid)
  end.
Definition sop_chan (o : sop) : nat := match o with SNum o => op_chan o | SText k _ _ | SBytes k _ _ | SNs k _ _ => k end.

Lemma step : forall o buf, sop_ok d2f l l' o -> bytes_ok buf -> N.of_nat (length buf) = record_bytes l ->
  exists c0 idx w valid, nth_error l (sop_chan o) = Some c0 /\ let p := placed_chan l (sop_chan o) c0 in
    idx < elems p /\ length w = elem_size p /\ bytes_ok w /\
    run_sop z d2f l' o buf = Ok (put_cell p idx w valid buf) /\ effect o (sop_chan o) c0 idx w valid.
Proof.
  intros o buf OK BB LB. destruct o as [o|ci s valid|ci s valid|ci ns valid]; cbn [sop_ok sop_chan run_sop] in *.
  - destruct OK as (c0 & c & N0 & NC & NU & Hi & VF). pose proof (prepared_nth _ _ N0) as NP. assert (c = placed_chan l (op_chan o) c0) by congruence. subst c. clear NC.
    set (p := placed_chan l (op_chan o) c0) in *.
    assert (P: placed p (N.of_nat (length buf))) by (rewrite LB; apply placed_chan_placed; auto).
    destruct (fits_stored d2f p _ VF) as [raw RS].
    exists c0, (op_idx o), (enc (is_le p) (elem_size p) raw), (op_valid o). split; [exact N0|]. cbv zeta. fold p.
    split; [exact Hi|]. split; [apply enc_length|]. split; [apply enc_ok|]. split.
    + cbn [run_ops]. rewrite NP. fold p. rewrite (set_channel_eq h2d f2d d2f p buf _ raw _ _ P Hi RS). reflexivity.
    + cbn [effect]. fold p. split; [exact NU|]. split; [reflexivity|]. split; [reflexivity|]. split; [reflexivity|].
      apply decode_stored; auto. apply (pl_size _ _ P).
  - destruct OK as [(c0 & N0 & CH) BS]. pose proof (prepared_nth _ _ N0) as NP.
    destruct (chars_placed l ci c0 N0 SZ (or_introl CH)) as (TP & ES & EL & EO & DT & _). set (p := placed_chan l ci c0) in *. rewrite <- LB in TP.
    exists c0, 0, (bytes_of_text p s), valid. split; [exact N0|]. cbv zeta. fold p. split; [lia|]. unfold bytes_of_text.
    split; [rewrite pad_length; auto|]. split.
    { apply pad_ok. destruct (is_string (ch_dtype p)); [|exact BS]. apply Forall_forall. intros x I.
      unfold bytes_ok in BS. rewrite Forall_forall in BS. apply BS. rewrite <- (firstn_skipn (size_in p - 1) s). apply in_or_app. auto. }
    split.
    + unfold with_chan. rewrite NP. fold p. unfold set_string, fixed_only. rewrite (tp_type _ _ TP).
      destruct CH as (_ & D & _). rewrite <- DT in D. destruct (ch_dtype p); cbn [is_chars is_string] in *; try destruct D;
        first [apply set_text_cell; assumption|apply set_bytes_cell; assumption].
    + cbn [effect put_by]. fold p. rewrite Nat.eqb_refl. split; [left; exact CH|]. split; reflexivity.
  - destruct OK as [(c0 & c & N0 & NC & CH) BS]. pose proof (prepared_nth _ _ N0) as NP. assert (c = placed_chan l ci c0) by congruence. subst c. clear NC.
    assert (CD : chars c0 \/ dates c0) by tauto.
    destruct (chars_placed l ci c0 N0 SZ CD) as (TP & ES & EL & EO & DT & _). set (p := placed_chan l ci c0) in *. rewrite <- LB in TP.
    exists c0, 0, (pad (size_in p) s), valid. split; [exact N0|]. cbv zeta. fold p. split; [lia|].
    split; [rewrite pad_length; auto|]. split; [apply pad_ok; exact BS|]. split.
    + unfold with_chan. rewrite NP. fold p. unfold set_vector, fixed_only. rewrite (tp_type _ _ TP). destruct CH as [(_ & D & _)|[(_ & D & _) LS]]; rewrite <- DT in D.
      * destruct (ch_dtype p); cbn [is_chars] in *; try destruct D; apply set_bytes_cell; assumption.
      * assert (LD : N.of_nat (length s) =? data_bytes p = true).
        { apply N.eqb_eq. unfold elem_size in ES. rewrite LS. lia. }
        destruct D as [-> | ->]; rewrite LD; apply set_bytes_cell; assumption.
    + cbn [effect put_by]. fold p. rewrite Nat.eqb_refl. split; [exact CD|]. split; reflexivity.
  - destruct OK as (c0 & N0 & CH). pose proof (prepared_nth _ _ N0) as NP.
    destruct (chars_placed l ci c0 N0 SZ (or_intror CH)) as (TP & ES & EL & EO & DT & _ & _ & D7 & D6). set (p := placed_chan l ci c0) in *. rewrite <- LB in TP.
    destruct (date_shape z ns) as (A1 & A2 & A3 & A4).
    exists c0, 0, (bytes_of_ns z p ns), valid. split; [exact N0|]. cbv zeta. fold p. split; [lia|].
    assert (SP : length (bytes_of_ns z p ns) = size_in p /\ bytes_ok (bytes_of_ns z p ns)).
    { unfold bytes_of_ns, size_in. destruct CH as (_ & D & _). rewrite DT. destruct D as [D|D]; rewrite D.
      - rewrite (D7 D), A2. split; [reflexivity|exact A1].
      - rewrite (D6 D), A4. split; [reflexivity|exact A3]. }
    destruct SP as [SP1 SP2]. split; [rewrite SP1; auto|]. split; [exact SP2|]. split.
    + unfold with_chan. rewrite NP. fold p. pose proof (set_bytes_cell p buf (bytes_of_ns z p ns) valid TP EO) as SB. rewrite pad_same in SB by exact SP1.
      rewrite <- SB. unfold set_ns, bytes_of_ns, data_bytes. destruct CH as (_ & D & _). rewrite DT. destruct D as [D|D]; rewrite D.
      * rewrite (D7 D). reflexivity.
      * rewrite (D6 D). reflexivity.
    + cbn [effect put_by]. fold p. rewrite Nat.eqb_refl. split; [right; exact CH|]. split; reflexivity.
Qed.

Lemma get_cell : forall p buf idx, bytes_ok buf -> placed p (N.of_nat (length buf)) -> idx < elems p ->
  getc p buf idx = Ok (decode_value f2d p (fst (cell p idx buf)), snd (cell p idx buf)).
Proof. intros p buf idx B P Hi. rewrite get_channel_eq by auto. reflexivity. Qed.

Lemma not_both : forall c, numeric c -> chars c \/ dates c -> False.
Proof. intros c [_ N] [(_ & D & _)|(_ & [D|D] & _)]; destruct (ch_dtype c); try discriminate; auto. Qed.

Lemma put_chan_only : forall p k o x, put_by z p k o = Some x -> sop_chan o = k.
Proof.
  intros p k o x E. destruct o as [o|ci s v|ci s v|ci ns v]; cbn [put_by sop_chan] in *; try discriminate E;
    destruct (Nat.eqb_spec ci k); congruence.
Qed.

Lemma sops_history : forall ops buf, Forall (sop_ok d2f l l') ops -> bytes_ok buf -> N.of_nat (length buf) = record_bytes l ->
  exists buf', run_sops z d2f l' ops buf = Ok buf' /\ bytes_ok buf' /\ N.of_nat (length buf') = record_bytes l /\
    (forall k c0 idx, nth_error l k = Some c0 -> numeric c0 -> let p := placed_chan l k c0 in idx < elems p ->
       getc p buf' idx =
       match last_write (nums ops) k idx with
       | Some (v, valid) => Ok (as_stored f2d d2f p v, if ch_invalid p then valid else true)
       | None => getc p buf idx
       end) /\
    (forall k c0, nth_error l k = Some c0 -> chars c0 \/ dates c0 -> let p := placed_chan l k c0 in
       cell p 0 buf' =
       match last_put z p k ops with
       | Some (w, valid) => (w, if ch_invalid p then valid else true)
       | None => cell p 0 buf
       end).
Proof.
  induction ops as [|o ops IH]; intros buf FO BB LB.
  - exists buf. cbn [run_sops nums flat_map last_write last_put]. split; [reflexivity|]. split; [exact BB|]. split; [exact LB|]. split; intros; reflexivity.
  - inversion FO as [|? ? O1 O2]; subst. destruct (step o buf O1 BB LB) as (c1 & i1 & w & valid & N1 & Hi1 & LW & BW & R & EF).
    set (q := placed_chan l (sop_chan o) c1) in *.
    assert (IQ : inside q (N.of_nat (length buf))) by (rewrite LB; apply placed_chan_inside; auto).
    destruct (put_facts q i1 w valid buf IQ Hi1 LW BW BB) as (F1 & F2 & F3). set (b1 := put_cell q i1 w valid buf) in *.
    destruct (IH b1 O2 F2 ltac:(rewrite F1; exact LB)) as (buf' & R' & BB' & LB' & HN & HC). clear IH.
    exists buf'. cbn [run_sops]. rewrite R. cbn [bind]. fold b1. split; [exact R'|]. split; [exact BB'|]. split; [exact LB'|].
    assert (FR : forall k c0 idx, nth_error l k = Some c0 -> idx < elems (placed_chan l k c0) ->
       (k <> sop_chan o \/ (k = sop_chan o /\ idx <> i1)) -> cell (placed_chan l k c0) idx b1 = cell (placed_chan l k c0) idx buf).
    { intros k c0 idx N0 Hi NE. apply put_frame; auto.
      - rewrite LB. apply placed_chan_inside; auto.
      - destruct NE as [NE|[-> NE]].
        + apply placed_chan_disjoint; auto.
          * destruct (placed_chan_fields l _ c1 N1 SZ) as (_ & _ & <- & _). exact Hi1.
          * destruct (placed_chan_fields l k c0 N0 SZ) as (_ & _ & <- & _). exact Hi.
        + assert (c0 = c1) as -> by congruence. apply same_cell_disjoint; auto. }
    split.
    + intros k c0 idx N0 NU Hi. rewrite (HN k c0 idx N0 NU Hi). clear HN HC.
      assert (LWE : last_write (nums (o :: ops)) k idx = match last_write (nums ops) k idx with Some x => Some x | None =>
                      match o with SNum o => if (op_chan o =? k)%nat && (op_idx o =? idx) then Some (op_value o, op_valid o) else None | _ => None end end).
      { destruct o; cbn [nums flat_map app]; cbn [last_write]; fold (nums ops); destruct (last_write (nums ops) k idx); reflexivity. }
      rewrite LWE. destruct (last_write (nums ops) k idx) as [[v va]|]; [reflexivity|].
      assert (P0 : placed (placed_chan l k c0) (N.of_nat (length buf))) by (rewrite LB; apply placed_chan_placed; auto).
      assert (P1 : placed (placed_chan l k c0) (N.of_nat (length b1))) by (rewrite F1; exact P0).
      rewrite (get_cell _ b1 idx F2 P1 Hi).
      destruct o as [o|ci s v|ci s v|ci ns v].
      * destruct EF as (_ & _ & E1 & E2 & E3). cbn [sop_chan] in *. fold q in E3.
        destruct (Nat.eqb_spec (op_chan o) k) as [<-|NE]; cbn [andb].
        -- destruct (N.eqb_spec (op_idx o) idx) as [<-|NI].
           ++ assert (c0 = c1) as -> by congruence. fold q. rewrite <- E1, F3. cbn [fst snd]. rewrite E3, E2. reflexivity.
           ++ rewrite (FR (op_chan o) c0 idx N0 Hi (or_intror (conj eq_refl (fun E => NI (eq_sym (eq_trans E E1)))))). rewrite (get_cell _ buf idx BB P0 Hi). reflexivity.
        -- rewrite FR by auto. rewrite (get_cell _ buf idx BB P0 Hi). reflexivity.
      * destruct EF as (CD & _). cbn [sop_chan] in *. rewrite FR; auto; [rewrite (get_cell _ buf idx BB P0 Hi); reflexivity|].
        left. intros ->. assert (c0 = c1) as -> by congruence. exact (not_both c1 NU CD).
      * destruct EF as (CD & _). cbn [sop_chan] in *. rewrite FR; auto; [rewrite (get_cell _ buf idx BB P0 Hi); reflexivity|].
        left. intros ->. assert (c0 = c1) as -> by congruence. exact (not_both c1 NU CD).
      * destruct EF as (CD & _). cbn [sop_chan] in *. rewrite FR; auto; [rewrite (get_cell _ buf idx BB P0 Hi); reflexivity|].
        left. intros ->. assert (c0 = c1) as -> by congruence. exact (not_both c1 NU CD).
    + intros k c0 N0 CD. rewrite (HC k c0 N0 CD). clear HN HC. cbn [last_put].
      destruct (last_put z (placed_chan l k c0) k ops) as [[w' va]|]; [reflexivity|].
      assert (E0 : 0 < elems (placed_chan l k c0)) by (unfold elems; lia).
      destruct (Nat.eq_dec (sop_chan o) k) as [<-|NE].
      * assert (c0 = c1) as -> by congruence. fold q.
        destruct o as [o|ci s v|ci s v|ci ns v]; [exfalso; destruct EF as (NU & _); exact (not_both c1 NU CD)| | |];
          destruct EF as (_ & -> & PB); fold q in PB; rewrite PB, F3; reflexivity.
      * rewrite FR by auto. destruct (put_by z (placed_chan l k c0) k o) as [x|] eqn:PB; [|reflexivity].
        exfalso. apply NE. eapply put_chan_only; eauto.
Qed.

(** From a new buffer. *)
Lemma sops_fresh : forall ops, Forall (sop_ok d2f l l') ops ->
  exists buf', run_sops z d2f l' ops (fresh_buffer nd ni) = Ok buf' /\ bytes_ok buf' /\ N.of_nat (length buf') = record_bytes l /\
    (forall k c0 idx, nth_error l k = Some c0 -> numeric c0 -> let p := placed_chan l k c0 in idx < elems p ->
       getc p buf' idx = Ok (value_after f2d d2f p (nums ops) k idx)) /\
    (forall k c0, nth_error l k = Some c0 -> chars c0 \/ dates c0 -> let p := placed_chan l k c0 in cell p 0 buf' = held z p ops k).
Proof.
  intros ops FO.
  assert (E: fresh_buffer nd ni = repeat 0 (N.to_nat (record_bytes l))).
  { destruct (prepare_group_eq l SZ) as (l2 & P2 & _ & _). rewrite PG in P2. injection P2 as _ -> ->.
    unfold fresh_buffer. rewrite w32_small; [reflexivity|]. fold (record_bytes l). assert (2 ^ 28 < 2 ^ 32) by reflexivity. lia. }
  rewrite E. destruct (sops_history ops (repeat 0 (N.to_nat (record_bytes l))) FO) as (buf & R & BB & LB & HN & HC).
  - apply Forall_forall. intros x I. apply repeat_spec in I. subst. reflexivity.
  - rewrite repeat_length, N2Nat.id. reflexivity.
  - exists buf. split; [exact R|]. split; [exact BB|]. split; [exact LB|]. split.
    + intros k c0 idx N0 NU. cbv zeta. intros Hi. rewrite (HN k c0 idx N0 NU Hi). unfold value_after. set (p := placed_chan l k c0) in *.
      destruct (last_write (nums ops) k idx) as [[v va]|]; [reflexivity|]. apply fresh_get; auto. rewrite N2Nat.id. apply placed_chan_placed; auto.
    + intros k c0 N0 CD. cbv zeta. rewrite (HC k c0 N0 CD). unfold held. set (p := placed_chan l k c0) in *. destruct (last_put z p k ops) as [[w va]|]; [reflexivity|].
      destruct (chars_placed l k c0 N0 SZ CD) as (TP & ES & EL & EO & _). fold p in TP, ES, EL, EO.
      pose proof (placed_chan_inside l k c0 N0 SZ) as I. fold p in I. destruct (inside_elem _ _ 0 I ltac:(lia)) as [H1 H2].
      unfold cell. f_equal.
      * rewrite slice_repeat0 by lia. rewrite ES. reflexivity.
      * unfold get_valid. destruct (ch_invalid p); auto. cbv zeta.
        match goal with |- (if ?b then _ else _) = true => destruct b; auto end. rewrite nth_repeat, N.bits_0. reflexivity.
Qed.
End History.
