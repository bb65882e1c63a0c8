(** Proofs about preparing a description and about the samples of a program. *)
From Verif Require Import Base BlockModel ConvModel StreamModel StreamSpec QueueModel QueueSpec ObsModel ChannelModel ChannelSpec HistProofs MetaModel MeasModel ValueModel ValueSpec.
Local Open Scope N_scope.
Local Open Scope list_scope.

(* ------------------------------------------------------------------ *)
(** ** The prepared description *)

Lemma ctype_of_num : forall t, ctype_of (ctype_num t) = t.
Proof. destruct t; reflexivity. Qed.

Definition kept (c p : chan) : Prop :=
  ch_dtype p = ch_dtype c /\ ch_array p = ch_array c /\ ch_vlsd_id p = ch_vlsd_id c /\ (ch_invalid p = true -> ch_invalid c = true).
Lemma kept_bits : forall c o i, kept c (prepare_channel c o i).
Proof.
  intros c o i. unfold prepare_channel. destruct (prepare_bits c) as [[t inv] b] eqn:E.
  split; [reflexivity|]. split; [reflexivity|]. split; [reflexivity|]. cbn [ch_invalid]. intros ->.
  unfold prepare_bits in E. destruct (ch_type c), (ch_dtype c); try (destruct (ch_bits c =? 0)); congruence.
Qed.
Lemma kept_loop : forall l b i l1 b1 i1, prepare_loop l b i = (l1, b1, i1) -> Forall2 kept l l1.
Proof.
  induction l as [|c l IH]; intros b i l1 b1 i1 E; cbn [prepare_loop] in E.
  - assert (l1 = []) as -> by congruence. constructor.
  - destruct (prepare_loop l _ _) as [[r x] y] eqn:P. assert (l1 = prepare_channel c b i :: r) as -> by congruence.
    constructor; [apply kept_bits|]. eapply IH. exact P.
Qed.
Lemma kept_group : forall l l' nd ni, prepare_group l = (l', nd, ni) ->
  Forall2 kept l l' /\ Forall (fun p => ch_cg_bytes p = nd) l'.
Proof.
  intros l l' nd ni E. unfold prepare_group in E. destruct (prepare_loop l 0 0) as [[l1 b] i] eqn:P.
  apply kept_loop in P.
  assert (A : map (fun c => mkChan (ch_type c) (ch_dtype c) (ch_byte c) (ch_bit c) (ch_bits c) (ch_array c) (ch_invalid c)
                              (ch_inval_pos c) (w32 b) (ch_vlsd_id c)) l1 = l') by congruence.
  assert (B : w32 b = nd) by congruence. clear E. rewrite <- A. split.
  - clear A. induction P as [|c p l l1 K P IH]; cbn [map]; constructor; auto.
  - apply Forall_forall. intros p I. apply in_map_iff in I. destruct I as (q & <- & _). exact B.
Qed.

Lemma put_chan : forall g g' c p, kept (chan_of g c) p -> ch_cg_bytes p = g_data g' -> chan_of g' (put_place p c) = p.
Proof.
  intros g g' [h cx] p (K1 & K2 & K3 & K4) E. cbn [put_place chan_of n_type n_dtype n_byteoff n_bitoff n_bits n_flags n_invalid] in *.
  cbn [ch_dtype ch_array ch_vlsd_id ch_invalid] in *. rewrite ctype_of_num, <- K1, <- K2, <- E.
  replace (N.testbit (if ch_invalid p then n_flags h else N.clearbit (n_flags h) 1) 1) with (ch_invalid p).
  - rewrite <- K3. destruct p. reflexivity.
  - destruct (ch_invalid p); [symmetry; auto|]. symmetry. apply N.clearbit_eq.
Qed.
Lemma put_chans : forall g g' cs ps, Forall2 kept (map (chan_of g) cs) ps -> Forall (fun p => ch_cg_bytes p = g_data g') ps ->
  map (chan_of g') (put_places ps cs) = ps.
Proof.
  intros g g'. induction cs as [|c cs IH]; intros ps K F; inversion K as [|? p ? r K1 K2]; subst; [reflexivity|].
  inversion F; subst. cbn [put_places map]. rewrite (put_chan g); auto. f_equal. apply IH; auto.
Qed.

(** The channels of a prepared group are those of [prepare_group]. *)
Lemma prepared : forall g, is_vlsd g = false ->
  prepare_group (chans_of g) = (chans_of (prepare_cg g), g_data (prepare_cg g), g_inval (prepare_cg g)) /\
  g_record (prepare_cg g) = g_record g /\ is_vlsd (prepare_cg g) = false /\
  length (g_cns (prepare_cg g)) = length (g_cns g).
Proof.
  intros g V. unfold prepare_cg. rewrite V. destruct (prepare_group (chans_of g)) as [[l nd] ni] eqn:P.
  destruct (kept_group _ _ _ _ P) as [K F]. cbn [g_data g_inval g_record]. split; [|split; [reflexivity|split]].
  - f_equal. f_equal. unfold chans_of at 1. cbn [g_cns]. rewrite put_chans with (g := g); auto.
  - unfold is_vlsd in *. cbn [g_flags]. exact V.
  - cbn [g_cns]. clear P F. unfold chans_of in K. revert l K. induction (g_cns g) as [|c cs IH]; intros l K; inversion K; subst; [reflexivity|].
    cbn [put_places length]. f_equal. auto.
Qed.

Lemma prepared_sizes : forall g, is_vlsd g = false -> record_bytes (chans_of g) < 2 ^ 28 ->
  g_data (prepare_cg g) + g_inval (prepare_cg g) = record_bytes (chans_of g).
Proof.
  intros g V B. destruct (prepared g V) as (P & _).
  destruct (prepare_group_eq (chans_of g) B) as (l2 & P2 & _). rewrite P in P2.
  assert (E1 : g_data (prepare_cg g) = sum_of space_of (chans_of g)) by congruence.
  assert (E2 : g_inval (prepare_cg g) = (sum_of invals_of (chans_of g) + 7) / 8) by congruence.
  unfold record_bytes. rewrite E1, E2. reflexivity.
Qed.

(* ------------------------------------------------------------------ *)
(** ** The samples of a program *)

Lemma run_ops_app : forall d2f l a b buf, run_ops d2f l (a ++ b) buf = bind (run_ops d2f l a buf) (run_ops d2f l b).
Proof.
  induction a as [|o a IH]; intros b buf; [reflexivity|]. cbn [app run_ops]. destruct (nth_error l (op_chan o)); [|reflexivity].
  destruct (set_channel d2f c buf (op_value o) (op_valid o) (op_idx o)); try reflexivity. cbn [bind]. apply IH.
Qed.

Definition of_group (g : cg) (l : list sample) : list sample := filter (fun s => s_id s =? g_record g) l.

Lemma of_group_other : forall gs k k' g g' ts b l, NoDup (map g_record gs) -> nth_error gs k = Some g -> nth_error gs k' = Some g' -> k' <> k ->
  of_group g (sample_of g' ts b :: l) = of_group g l.
Proof.
  intros gs k k' g g' ts b l ND K K' NE. unfold of_group. cbn [filter sample_of s_id].
  destruct (N.eqb_spec (g_record g') (g_record g)) as [E|E]; [|reflexivity]. exfalso. apply NE.
  apply (proj1 (NoDup_nth_error (map g_record gs)) ND).
  - apply nth_error_Some. rewrite nth_error_map, K'. discriminate.
  - rewrite !nth_error_map, K, K'. cbn. congruence.
Qed.

(** Every sample of a group is the sample buffer after the calls before it. *)
Lemma prog_samples : forall d2f gs p bufs l, NoDup (map g_record gs) -> run_prog d2f gs p bufs = Ok l ->
  forall k g, nth_error gs k = Some g -> forall n,
  nth_error (of_group g l) n =
    match calls_before p k n with
    | Some ops => match run_ops d2f (chans_of g) ops (bufs k) with Ok b => Some (sample_of g (time_of p k n) b) | _ => None end
    | None => None
    end /\
  (forall ops, calls_before p k n = Some ops -> exists b, run_ops d2f (chans_of g) ops (bufs k) = Ok b).
Proof.
  intros d2f gs. induction p as [|[k' o|k' ts] p IH]; intros bufs l ND R k g K n; cbn [run_prog] in R.
  - assert (l = []) as -> by congruence. split; [destruct n; reflexivity|]. intros ops X. discriminate X.
  - destruct (nth_error gs k') as [g'|] eqn:K'; [|discriminate R].
    destruct (run_ops d2f (chans_of g') [o] (bufs k')) as [b| |] eqn:RO; try discriminate R. cbn [bind] in R.
    destruct (IH _ _ ND R k g K n) as [A B]. cbn [calls_before time_of]. destruct (calls_before p k n) as [ops|] eqn:CB; cbn [option_map].
    + specialize (B ops eq_refl). destruct B as [b' B]. unfold put_buf in A, B.
      destruct (Nat.eqb_spec k' k) as [->|NE].
      * rewrite Nat.eqb_refl in A, B. rewrite K in K'. assert (g' = g) as -> by congruence.
        change (o :: ops) with ([o] ++ ops). split.
        -- rewrite run_ops_app, RO. cbn [bind]. exact A.
        -- intros ops' E. assert (ops' = [o] ++ ops) as -> by congruence. rewrite run_ops_app, RO. cbn [bind]. eauto.
      * destruct (Nat.eqb_spec k k') as [E|_]; [congruence|]. split; [exact A|]. intros ops' E. assert (ops' = ops) as -> by congruence. eauto.
    + split; [exact A|]. intros ops' E. discriminate E.
  - destruct (nth_error gs k') as [g'|] eqn:K'; [|discriminate R].
    destruct (run_prog d2f gs p bufs) as [l0| |] eqn:R0; try discriminate R. cbn [bind] in R.
    assert (l = sample_of g' ts (bufs k') :: l0) as -> by congruence. clear R. cbn [calls_before time_of].
    destruct (Nat.eqb_spec k' k) as [->|NE].
    + rewrite K in K'. assert (g' = g) as -> by congruence.
      unfold of_group at 1. cbn [filter sample_of s_id]. rewrite N.eqb_refl. destruct n as [|n].
      * cbn [nth_error run_ops]. split; [reflexivity|]. intros ops E. assert (ops = []) as -> by congruence. eexists. reflexivity.
      * cbn [nth_error]. apply (IH _ _ ND R0 k g K n).
    + rewrite (of_group_other gs k k' g g') by auto. apply (IH _ _ ND R0 k g K n).
Qed.

Lemma calls_saves : forall p k n, calls_before p k n <> None <-> (n < saves p k)%nat.
Proof.
  induction p as [|[k' o|k' ts] p IH]; intros k n; cbn [calls_before].
  - split; [congruence|]. cbn. lia.
  - unfold saves. cbn [filter]. fold (saves p k). rewrite <- IH. destruct (calls_before p k n); cbn; split; congruence.
  - unfold saves. cbn [filter]. destruct (Nat.eqb_spec k' k) as [->|NE].
    + cbn [length]. fold (saves p k). destruct n as [|n]; [split; [lia|discriminate]|]. rewrite IH. lia.
    + fold (saves p k). apply IH.
Qed.

(** A program that fits runs, and its samples have the sizes of their groups. *)
Definition prepared_groups (gs : list cg) : list cg := map prepare_cg gs.
Definition buf_ok (g : cg) (b : list N) : Prop := bytes_ok b /\ N.of_nat (length b) = record_bytes (chans_of g).

Lemma prog_runs : forall d2f gs, sizes_small gs -> forall p, Forall (call_ok d2f gs) p -> forall bufs,
  (forall k g, nth_error gs k = Some g -> is_vlsd g = false -> buf_ok g (bufs k)) ->
  exists l, run_prog d2f (prepared_groups gs) p bufs = Ok l /\
    Forall (fun s => exists k g, nth_error gs k = Some g /\ is_vlsd g = false /\ s_id s = g_record g /\
                       buf_ok g (s_rec s) /\ s_has s = false /\ s_vbuf s = [] /\ s_ts s < 2 ^ 63) l.
Proof.
  intros d2f gs SM. induction p as [|o p IH]; intros F bufs BO.
  - exists []. split; [reflexivity|constructor].
  - inversion F as [|? ? C F']; subst. destruct o as [k o|k ts]; destruct C as (g & K & V & C); cbn [run_prog].
    + unfold prepared_groups at 1. rewrite nth_error_map, K. cbn [option_map].
      destruct (prepared g V) as (P & _). pose proof (BO k g K V) as [B1 B2].
      assert (SB : record_bytes (chans_of g) < 2 ^ 28).
      { unfold sizes_small in SM. rewrite Forall_forall in SM. apply SM; [eapply nth_error_In; eauto|exact V]. }
      destruct (run_ops_inv (fun x => x) (fun x => x) d2f _ _ _ _ SB P [o] (bufs k)) as (b & R & X1 & X2 & _); auto.
      rewrite R. cbn [bind]. apply IH; auto. intros k' g' K' V'. unfold put_buf. destruct (Nat.eqb_spec k' k) as [->|NE]; auto.
      rewrite K in K'. assert (g' = g) as -> by congruence. split; auto.
    + destruct (IH F' bufs BO) as (l & R & S). unfold prepared_groups at 1. rewrite nth_error_map, K. cbn [option_map].
      rewrite R. cbn [bind]. eexists. split; [reflexivity|]. constructor; auto. destruct (prepared g V) as (_ & E & _).
      exists k, g. cbn [sample_of s_id s_rec s_has s_vbuf s_ts]. repeat (split; auto); apply (BO k g K V).
Qed.

Lemma new_ok : forall gs k g, sizes_small gs -> nth_error gs k = Some g -> is_vlsd g = false ->
  buf_ok g (new_bufs (prepared_groups gs) k) /\
  new_bufs (prepared_groups gs) k = fresh_buffer (g_data (prepare_cg g)) (g_inval (prepare_cg g)).
Proof.
  intros gs k g SM K V.
  assert (SB : record_bytes (chans_of g) < 2 ^ 28).
  { unfold sizes_small in SM. rewrite Forall_forall in SM. apply SM; [eapply nth_error_In; eauto|exact V]. }
  unfold new_bufs, prepared_groups. rewrite nth_error_map, K. cbn [option_map]. split; [|reflexivity].
  unfold buf_ok, fresh_buffer. rewrite prepared_sizes by auto. split.
  - apply Forall_forall. intros b I. apply repeat_spec in I. subst. reflexivity.
  - rewrite repeat_length, N2Nat.id. unfold w32. apply N.mod_small. change (2 ^ 32) with 4294967296. change (2 ^ 28) with 268435456 in SB. lia.
Qed.
