(** The samples of a program with data writers. *)
From Verif Require Import Base BlockModel StreamModel StreamSpec QueueModel QueueSpec ObsModel ChannelModel ChannelSpec SetProofs HistProofs MetaModel MeasModel
  ValueModel ValueSpec ValueProofs ValueProofs4 ValueProofs6 BulkModel BulkSpec BulkProofs.
Local Open Scope N_scope.
Local Open Scope list_scope.

Lemma f2_nth : forall A B (R : A -> B -> Prop) l m, Forall2 R l m -> forall n x, nth_error l n = Some x -> exists y, nth_error m n = Some y /\ R x y.
Proof.
  intros A B R l m F. induction F as [|a b l m H F IH]; intros [|n] x E; try discriminate E; cbn [nth_error] in *.
  - exists b. split; [reflexivity|]. assert (a = x) as <- by congruence. exact H.
  - apply IH. exact E.
Qed.
Lemma f2_nth_r : forall A B (R : A -> B -> Prop) l m, Forall2 R l m -> forall n y, nth_error m n = Some y -> exists x, nth_error l n = Some x /\ R x y.
Proof.
  intros A B R l m F. induction F as [|a b l m H F IH]; intros [|n] x E; try discriminate E; cbn [nth_error] in *.
  - exists a. split; [reflexivity|]. assert (b = x) as <- by congruence. exact H.
  - apply IH. exact E.
Qed.
Lemma f2_put : forall A B (R : A -> B -> Prop) l m, Forall2 R l m -> forall n x y, (n < length l)%nat -> R x y ->
  Forall2 R (firstn n l ++ x :: skipn (S n) l) (firstn n m ++ y :: skipn (S n) m).
Proof.
  intros A B R l m F. induction F as [|a b l m H F IH]; intros [|n] x y L X; cbn [length] in L; try lia.
  - cbn [firstn skipn app]. constructor; auto.
  - cbn [firstn app]. change (skipn (S (S n)) (a :: l)) with (skipn (S n) l). change (skipn (S (S n)) (b :: m)) with (skipn (S n) m).
    constructor; [exact H|]. apply IH; [lia|exact X].
Qed.
Lemma map_put : forall A B (f : A -> B) l n x y, nth_error l n = Some x -> f y = f x ->
  map f (firstn n l ++ y :: skipn (S n) l) = map f l.
Proof.
  intros A B f. induction l as [|a l IH]; intros [|n] x y E F; try discriminate E; cbn [nth_error] in E.
  - cbn [firstn skipn app map]. f_equal. congruence.
  - cbn [firstn app]. change (skipn (S (S n)) (a :: l)) with (skipn (S n) l). cbn [map]. f_equal. eapply IH; eauto.
Qed.
Lemma same_put : forall A (l : list A) n x, nth_error l n = Some x -> firstn n l ++ x :: skipn (S n) l = l.
Proof.
  induction l as [|a l IH]; intros [|n] x E; try discriminate E; cbn [nth_error] in E.
  - cbn. congruence.
  - cbn [firstn app]. change (skipn (S (S n)) (a :: l)) with (skipn (S n) l). f_equal. apply IH. exact E.
Qed.

Section Bulk.
Context (f2d d2f : N -> N) (gs : list cg) (SM : sizes_small gs).
Let gs' := prepared_groups gs.

Definition good (k : nat) (b : list N) (l : list setop) : Prop :=
  exists g, nth_error gs k = Some g /\ is_vlsd g = false /\
    run_ops d2f (chans_of (prepare_cg g)) l (new_bufs gs' k) = Ok b /\ Forall (op_ok d2f (chans_of g) (chans_of (prepare_cg g))) l.

Lemma small : forall k g, nth_error gs k = Some g -> is_vlsd g = false -> record_bytes (chans_of g) < 2 ^ 28.
Proof. intros k g K V. unfold sizes_small in SM. rewrite Forall_forall in SM. apply SM; [eapply nth_error_In; eauto|exact V]. Qed.

Lemma prep_nth : forall k g, nth_error gs k = Some g -> nth_error gs' k = Some (prepare_cg g).
Proof. intros k g K. unfold gs', prepared_groups. rewrite nth_error_map, K. reflexivity. Qed.

Lemma good_buf : forall k b l g, good k b l -> nth_error gs k = Some g -> is_vlsd g = false /\ buf_ok g b.
Proof.
  intros k b l g (g1 & K1 & V & R & F) K. assert (g1 = g) as -> by congruence. split; [exact V|].
  destruct (prepared g V) as (P & _). destruct (new_ok gs k g SM K V) as [[B1 B2] _].
  destruct (run_ops_inv (fun x => x) (fun x => x) d2f _ _ _ _ (small k g K V) P l _ F B1 B2) as (b0 & R' & X1 & X2 & _).
  assert (E : b0 = b) by (unfold gs' in R; congruence). subst b0. split; auto.
Qed.

Lemma good_read : forall k b l g ci c0 c, good k b l -> nth_error gs k = Some g -> nth_error (chans_of g) ci = Some c0 ->
  nth_error (chans_of (prepare_cg g)) ci = Some c -> numeric c0 ->
  get_valid c b 0 = (if ch_invalid c then valid_after l ci else true).
Proof.
  intros k b l g ci c0 c (g1 & K1 & V & R & F) K C0 C NU. assert (g1 = g) as -> by congruence.
  destruct (prepared g V) as (P & _). destruct (new_ok gs k g SM K V) as [_ EB]. unfold gs' in R. rewrite EB in R.
  destruct (history (fun x => x) (fun x => x) d2f _ _ _ _ l (small k g K V) P F) as (b0 & R' & _ & GT).
  assert (b0 = b) by congruence. subst b0.
  assert (G := GT ci c0 c 0 C0 C NU ltac:(unfold elems; lia)). unfold valid_after.
  assert (X : forall v ok, get_channel (fun x => x) (fun x => x) c b 0 = Ok (v, ok) -> get_valid c b 0 = ok).
  { intros v ok H. unfold get_channel in H.
    destruct (ch_dtype c); try discriminate H;
      try (destruct (get_unsigned c b 0); try discriminate H); try (destruct (get_signed c b 0); try discriminate H);
      try (destruct (get_float _ _ c b 0); try discriminate H); cbn [bind] in H; congruence. }
  destruct (last_write l ci 0) as [[v ok]|]; apply X in G; rewrite G; [reflexivity|]. destruct (ch_invalid c); reflexivity.
Qed.

Lemma good_app : forall k b l g o b', good k b l -> nth_error gs k = Some g -> op_ok d2f (chans_of g) (chans_of (prepare_cg g)) o ->
  run_ops d2f (chans_of (prepare_cg g)) [o] b = Ok b' -> good k b' (l ++ [o]).
Proof.
  intros k b l g o b' (g1 & K1 & V & R & F) K O R1. assert (g1 = g) as -> by congruence. exists g. split; [exact K|]. split; [exact V|].
  split; [rewrite run_ops_app, R; exact R1|]. apply Forall_app. split; [exact F|]. constructor; [exact O|constructor].
Qed.

Lemma step_set : forall k b l g o, good k b l -> nth_error gs k = Some g -> op_ok d2f (chans_of g) (chans_of (prepare_cg g)) o ->
  exists b', run_ops d2f (chans_of (prepare_cg g)) [o] b = Ok b' /\ good k b' (l ++ [o]).
Proof.
  intros k b l g o G K O. destruct (good_buf k b l g G K) as [V [B1 B2]]. destruct (prepared g V) as (P & _).
  destruct (run_ops_inv (fun x => x) (fun x => x) d2f _ _ _ _ (small k g K V) P [o] b ltac:(constructor; [exact O|constructor]) B1 B2) as (b' & R & _).
  exists b'. split; [exact R|]. eapply good_app; eauto.
Qed.

Lemma step_value : forall k b l g y v ci c0 c, good k b l -> nth_error gs k = Some g ->
  layout_channel (prepare_cg g) y = Some ci -> nth_error (chans_of g) ci = Some c0 -> nth_error (chans_of (prepare_cg g)) ci = Some c ->
  (takes c v = true -> numeric c0 /\ tval_fits f2d d2f c v) ->
  exists lay b', nth_error (layouts (prepare_cg g)) y = Some lay /\ set_value lay v b = Ok b' /\ good k b' (typed_call f2d (prepare_cg g) y v l).
Proof.
  intros k b l g y v ci c0 c G K L C0 C TV. exists (mkLay ci (ch_byte c) (data_bytes c) (ch_dtype c)).
  unfold typed_call. rewrite L, C. destruct (takes c v) eqn:TK.
  - destruct (TV eq_refl) as [NU FI]. clear TV. destruct (good_buf k b l g G K) as [V [B1 B2]]. destruct (prepared g V) as (P & _).
    destruct (prepare_group_eq _ (small k g K V)) as (l2 & P2 & _ & NTH).
    assert (E2 : l2 = chans_of (prepare_cg g)) by congruence. subst l2. pose proof (NTH _ _ C0) as NP.
    assert (EP : c = placed_chan (chans_of g) ci c0) by congruence.
    assert (PL : placed c (N.of_nat (length b))) by (rewrite EP, B2; apply placed_chan_placed; auto; eapply small; eauto).
    destruct (set_value_op f2d d2f c v ci b PL TK FI) as [SV VF].
    set (o := mkOp ci (value_of f2d v) (valid_after l ci) 0).
    assert (O : op_ok d2f (chans_of g) (chans_of (prepare_cg g)) o).
    { exists c0, c. unfold o. cbn [op_chan op_idx op_value]. split; [exact C0|]. split; [exact C|]. split; [exact NU|]. split; [unfold elems; lia|exact VF]. }
    destruct (step_set k b l g o G K O) as (b' & R & G'). exists b'. split; [eapply layout_of; eauto|]. split; [|exact G'].
    rewrite SV. unfold o in R. cbn [run_ops op_chan op_value op_valid op_idx] in R. rewrite C in R.
    assert (SET : set_channel d2f c b (value_of f2d v) (get_valid c b 0) 0 = set_channel d2f c b (value_of f2d v) (valid_after l ci) 0).
    { pose proof (good_read k b l g ci c0 c G K C0 C NU) as GR. destruct (ch_invalid c) eqn:I; [rewrite GR; reflexivity|].
      assert (Q : forall x y, set_channel d2f c b (value_of f2d v) x 0 = set_channel d2f c b (value_of f2d v) y 0).
      { intros x z. unfold set_channel, set_unsigned_le, set_unsigned_be, set_signed, set_float.
        rewrite !(set_valid_off c b x 0 I), !(set_valid_off c b z 0 I), !(set_valid_off c b false 0 I). reflexivity. }
      apply Q. }
    rewrite SET. destruct (set_channel d2f c b (value_of f2d v) (valid_after l ci) 0); try discriminate R. cbn [bind] in R. exact R.
  - exists b. split; [eapply layout_of; eauto|]. split; [apply set_value_ignored; exact TK|exact G].
Qed.

Lemma step_reset : forall k b l, good k b l -> good k (reset b) [].
Proof.
  intros k b l G. pose proof G as (g & K & V & _). destruct (good_buf k b l g G K) as [_ [B1 B2]].
  destruct (new_ok gs k g SM K V) as [[N1 N2] EB]. exists g. split; [exact K|]. split; [exact V|]. split; [|constructor]. cbn [run_ops]. f_equal.
  unfold gs'. rewrite EB in *. unfold reset, fresh_buffer in *. rewrite repeat_length in N2. f_equal. lia.
Qed.

(** The state and the history. *)
Definition related (bufs : nat -> list N) (ws : list bwriter) (h : hist) : Prop :=
  (forall k g, nth_error gs k = Some g -> is_vlsd g = false -> good k (bufs k) (hi_group h k)) /\
  Forall2 (fun x y => b_group x = fst y /\ good (fst y) (b_buf x) (snd y)) ws (hi_writers h).
Definition entry (s : sample) (x : nat * N * list setop) : Prop :=
  let '(k, ts, ops) := x in
  exists g b, nth_error gs k = Some g /\ is_vlsd g = false /\ s = sample_of (prepare_cg g) ts b /\
    run_ops d2f (chans_of (prepare_cg g)) ops (new_bufs gs' k) = Ok b /\ Forall (op_ok d2f (chans_of g) (chans_of (prepare_cg g))) ops /\ ts < 2 ^ 63.

Lemma entry_of : forall k b l g ts, good k b l -> nth_error gs k = Some g -> ts < 2 ^ 63 -> entry (sample_of (prepare_cg g) ts b) (k, ts, l).
Proof. intros k b l g ts (g1 & K1 & V & R & F) K L. assert (g1 = g) as -> by congruence. exists g, b. auto 10. Qed.

Lemma bulk_run : forall p bufs ws h, related bufs ws h -> bulk_ok f2d d2f gs (map fst (hi_writers h)) p ->
  exists l, run_bulk d2f gs' p bufs ws = Ok l /\ Forall2 entry l (bulk_history f2d gs' p h).
Proof.
  induction p as [|o p IH]; intros bufs ws h RE OK; [exists []; split; [reflexivity|constructor]|].
  pose proof RE as [RB RW].
  assert (WR : forall w k l, nth_error (hi_writers h) w = Some (k, l) ->
     exists x g, nth_error ws w = Some x /\ b_group x = k /\ good k (b_buf x) l /\ nth_error gs k = Some g).
  { intros w k l E. destruct (f2_nth_r _ _ _ _ _ RW w (k, l) E) as (x & X & A & B). cbn [fst snd] in *. pose proof B as (g & G & _). exists x, g. auto. }
  assert (WL : forall w, (w < length (map fst (hi_writers h)))%nat -> exists k l, nth_error (hi_writers h) w = Some (k, l)).
  { intros w L. rewrite map_length in L. destruct (nth_error (hi_writers h) w) as [[k l]|] eqn:E; [eauto|]. apply nth_error_None in E. lia. }
  assert (WK : forall w k, nth_error (map fst (hi_writers h)) w = Some k -> exists l, nth_error (hi_writers h) w = Some (k, l)).
  { intros w k E. rewrite nth_error_map in E. destruct (nth_error (hi_writers h) w) as [[k1 l]|]; [|discriminate E]. exists l. cbn in E. congruence. }
  assert (UP : forall w k l x b' l', nth_error (hi_writers h) w = Some (k, l) -> nth_error ws w = Some x -> b_group x = k -> good k b' l' ->
     related bufs (put_writer ws w b') (mkHist (hi_group h) (put_calls (hi_writers h) w l')) /\
     map fst (put_calls (hi_writers h) w l') = map fst (hi_writers h)).
  { intros w k l x b' l' E X BG GD. unfold put_writer, put_calls. rewrite X, E. split.
    - split; [exact RB|]. cbn [hi_writers]. apply f2_put; [exact RW|apply nth_error_Some; congruence|]. cbn [b_group b_buf fst snd]. auto.
    - eapply map_put; [exact E|reflexivity]. }
  destruct o as [k o|k ts|k|w y v|w|w bytes|w ts]; cbn [bulk_ok] in OK; cbn [run_bulk bulk_history].
  - destruct OK as [(g & K & V & O) OK]. rewrite (prep_nth k g K).
    destruct (step_set k _ _ g o (RB k g K V) K O) as (b' & R & G'). rewrite R. cbn [bind]. apply IH; [|exact OK].
    split; [|exact RW]. cbn [hi_group]. intros j g1 J V1. unfold put_buf, put_hist. destruct (Nat.eqb_spec j k) as [->|NE]; [exact G'|apply (RB j g1 J V1)].
  - destruct OK as [(g & K & V & O) OK]. rewrite (prep_nth k g K). destruct (IH bufs ws h RE OK) as (l & R & F). rewrite R. cbn [bind].
    eexists. split; [reflexivity|]. constructor; [|exact F]. apply entry_of; auto. apply (RB k g K V).
  - destruct OK as [(g & K & V) OK]. rewrite (prep_nth k g K). apply IH; [|cbn [hi_writers]; rewrite map_app; exact OK].
    split; [exact RB|]. cbn [hi_writers]. apply Forall2_app; [exact RW|]. constructor; [|constructor]. cbn [b_group b_buf fst snd]. split; [reflexivity|apply (RB k g K V)].
  - destruct OK as [(k & g & ci & c0 & c & W & K & L & C0 & C & TV) OK]. destruct (WK w k W) as [l E].
    destruct (WR w k l E) as (x & g1 & X & BG & GD & K1). assert (g1 = g) as -> by congruence.
    rewrite X, E, BG, (prep_nth k g K). destruct (step_value k (b_buf x) l g y v ci c0 c GD K L C0 C TV) as (lay & b' & LY & SV & G').
    rewrite LY, SV. cbn [bind]. destruct (UP w k l x b' _ E X BG G') as [R1 R2]. apply IH; [exact R1|]. cbn [hi_writers]. rewrite R2. exact OK.
  - destruct OK as [L OK]. destruct (WL w L) as (k & l & E). destruct (WR w k l E) as (x & g & X & BG & GD & K). rewrite X.
    destruct (UP w k l x (reset (b_buf x)) [] E X BG (step_reset k _ l GD)) as [R1 R2]. apply IH; [exact R1|]. cbn [hi_writers]. rewrite R2. exact OK.
  - destruct OK as [(k & g & W & K & NE) OK]. destruct (WK w k W) as [l E]. destruct (WR w k l E) as (x & g1 & X & BG & GD & K1).
    assert (g1 = g) as -> by congruence. rewrite X. destruct (good_buf k _ l g GD K) as [V [B1 B2]].
    assert (WB : write_raw bytes (b_buf x) = b_buf x).
    { unfold write_raw. destruct (Nat.eqb_spec (length bytes) (length (b_buf x))) as [Q|Q]; [|reflexivity]. exfalso. apply NE. rewrite Q. exact B2. }
    rewrite WB. destruct (UP w k l x (b_buf x) l E X BG GD) as [R1 R2].
    assert (SP : put_calls (hi_writers h) w l = hi_writers h) by (unfold put_calls; rewrite E; apply same_put; exact E).
    rewrite SP in R1. destruct h as [hg hw]. cbn [hi_group hi_writers] in *. apply IH; [exact R1|exact OK].
  - destruct OK as (L & TL & OK). destruct (WL w L) as (k & l & E). destruct (WR w k l E) as (x & g & X & BG & GD & K).
    rewrite X, E, BG, (prep_nth k g K). destruct (IH bufs ws h RE OK) as (l0 & R & F). rewrite R. cbn [bind].
    eexists. split; [reflexivity|]. constructor; [|exact F]. apply entry_of; auto.
Qed.

Lemma bulk_start : forall p, bulk_ok f2d d2f gs [] p ->
  exists l, bulk_samples d2f gs' p = Ok l /\ Forall2 entry l (bulk_history f2d gs' p no_hist).
Proof.
  intros p OK. apply bulk_run; [|exact OK]. split; [|constructor]. cbn [no_hist hi_group]. intros k g K V.
  exists g. split; [exact K|]. split; [exact V|]. split; [reflexivity|constructor].
Qed.

(** The samples of one group. *)
Lemma entries_group : forall l x, NoDup (map g_record gs') -> Forall2 entry l x -> forall j g, nth_error gs j = Some g -> is_vlsd g = false ->
  Forall2 entry (of_group (prepare_cg g) l) (filter (fun x => (fst (fst x) =? j)%nat) x).
Proof.
  intros l x ND F j g J V. unfold of_group. induction F as [|s [[k ts] ops] l x H F IH]; [constructor|]. cbn [filter fst].
  pose proof H as (g1 & b & K & V1 & -> & _). cbn [sample_of s_id].
  destruct (Nat.eqb_spec k j) as [->|NE].
  - assert (g1 = g) as -> by congruence. rewrite N.eqb_refl. constructor; auto.
  - destruct (N.eqb_spec (g_record (prepare_cg g1)) (g_record (prepare_cg g))) as [E|E]; [|exact IH]. exfalso. apply NE.
    apply (proj1 (NoDup_nth_error (map g_record gs')) ND).
    + apply nth_error_Some. rewrite nth_error_map, (prep_nth k g1 K). discriminate.
    + rewrite !nth_error_map, (prep_nth k g1 K), (prep_nth j g J). cbn. congruence.
Qed.
End Bulk.
