(** A program with data writers in two parts. *)
From Verif Require Import Base BlockModel StreamModel StreamSpec QueueModel QueueSpec ObsModel ChannelModel ChannelSpec MetaModel MeasModel
  ValueModel ValueSpec ValueProofs ValueProofs6 BulkModel BulkSpec BulkProofs BulkProofs2.
Local Open Scope N_scope.
Local Open Scope list_scope.

Section Parts.
Context (f2d d2f : N -> N) (gs : list cg) (SM : sizes_small gs).
Let gs' := prepared_groups gs.
Notation related := (BulkProofs2.related d2f gs).
Notation good := (BulkProofs2.good d2f gs).

Definition new_writers (p : list bop) : list nat := flat_map (fun o => match o with BNew k => [k] | _ => [] end) p.

Lemma bulk_app : forall p bufs ws h, related bufs ws h -> bulk_ok f2d d2f gs (map fst (hi_writers h)) p ->
  exists l bufs1 ws1 h1, related bufs1 ws1 h1 /\ map fst (hi_writers h1) = map fst (hi_writers h) ++ new_writers p /\
    run_bulk d2f gs' p bufs ws = Ok l /\
    forall q, run_bulk d2f gs' (p ++ q) bufs ws = bind (run_bulk d2f gs' q bufs1 ws1) (fun m => Ok (l ++ m)).
Proof.
  induction p as [|o p IH]; intros bufs ws h RE OK.
  { exists [], bufs, ws, h. split; [exact RE|]. split; [cbn; rewrite app_nil_r; reflexivity|]. split; [reflexivity|]. intros q. cbn [app].
    destruct (run_bulk d2f gs' q bufs ws); reflexivity. }
  pose proof RE as [RB RW].
  assert (WR : forall w k l, nth_error (hi_writers h) w = Some (k, l) ->
     exists x g, nth_error ws w = Some x /\ b_group x = k /\ good k (b_buf x) l /\ nth_error gs k = Some g).
  { intros w k l E. destruct (f2_nth_r _ _ _ _ _ RW w (k, l) E) as (x & X & A & B). cbn [fst snd] in *. pose proof B as (g & G & _). exists x, g. auto. }
  assert (WL : forall w, (w < length (map fst (hi_writers h)))%nat -> exists k l, nth_error (hi_writers h) w = Some (k, l)).
  { intros w L. rewrite map_length in L. destruct (nth_error (hi_writers h) w) as [[k l]|] eqn:E; [eauto|]. apply nth_error_None in E. lia. }
  assert (WK : forall w k, nth_error (map fst (hi_writers h)) w = Some k -> exists l, nth_error (hi_writers h) w = Some (k, l)).
  { intros w k E. rewrite nth_error_map in E. destruct (nth_error (hi_writers h) w) as [[k1 l]|]; [|discriminate E]. exists l. cbn in E. congruence. }
  assert (UP : forall w k l x b' l', nth_error (hi_writers h) w = Some (k, l) -> nth_error ws w = Some x -> b_group x = k -> good k b' l' ->
     related bufs (put_writer ws w b') (mkHist (hi_group h) (put_calls (hi_writers h) w l')) /\
     map fst (put_calls (hi_writers h) w l') = map fst (hi_writers h)).
  { intros w k l x b' l' E X BG GD. unfold put_writer, put_calls. rewrite X, E. split.
    - split; [exact RB|]. cbn [hi_writers]. apply f2_put; [exact RW|apply nth_error_Some; congruence|]. cbn [b_group b_buf fst snd]. auto.
    - eapply map_put; [exact E|reflexivity]. }
  destruct o as [k o|k ts|k|w y v|w|w bytes|w ts]; cbn [bulk_ok] in OK; cbn [run_bulk app].
  - destruct OK as [(g & K & V & O) OK]. unfold gs'. rewrite (prep_nth gs k g K).
    destruct (step_set d2f gs SM k _ _ g o (RB k g K V) K O) as (b' & R & G'). rewrite R. cbn [bind].
    apply (IH (put_buf bufs k b') ws (mkHist (put_hist (hi_group h) k (hi_group h k ++ [o])) (hi_writers h))); [|exact OK].
    split; [|exact RW]. cbn [hi_group]. intros j g1 J V1. unfold put_buf, put_hist. destruct (Nat.eqb_spec j k) as [->|NE]; [exact G'|apply (RB j g1 J V1)].
  - destruct OK as [(g & K & V & O) OK]. unfold gs'. rewrite (prep_nth gs k g K). destruct (IH bufs ws h RE OK) as (l & b1 & w1 & h1 & R1 & M1 & R & A).
    fold gs'. rewrite R. cbn [bind]. exists (sample_of (prepare_cg g) ts (bufs k) :: l), b1, w1, h1. split; [exact R1|]. split; [exact M1|].
    split; [reflexivity|]. intros q. rewrite A. destruct (run_bulk d2f gs' q b1 w1); reflexivity.
  - destruct OK as [(g & K & V) OK]. unfold gs'. rewrite (prep_nth gs k g K). fold gs'.
    destruct (IH bufs (ws ++ [mkBw k (bufs k)]) (mkHist (hi_group h) (hi_writers h ++ [(k, hi_group h k)]))) as (l & b1 & w1 & h1 & R1 & M1 & R & A).
    + split; [exact RB|]. cbn [hi_writers]. apply Forall2_app; [exact RW|]. constructor; [|constructor]. cbn [b_group b_buf fst snd]. split; [reflexivity|apply (RB k g K V)].
    + cbn [hi_writers]. rewrite map_app. exact OK.
    + exists l, b1, w1, h1. split; [exact R1|]. split; [|split; [exact R|exact A]]. rewrite M1. cbn [hi_writers]. rewrite map_app, <- app_assoc. reflexivity.
  - destruct OK as [(k & g & ci & c0 & c & W & K & L & C0 & C & TV) OK]. destruct (WK w k W) as [l E].
    destruct (WR w k l E) as (x & g1 & X & BG & GD & K1). assert (g1 = g) as -> by congruence.
    rewrite X, BG. unfold gs'. rewrite (prep_nth gs k g K). destruct (step_value f2d d2f gs SM k (b_buf x) l g y v ci c0 c GD K L C0 C TV) as (lay & b' & LY & SV & G').
    rewrite LY, SV. cbn [bind]. fold gs'. destruct (UP w k l x b' _ E X BG G') as [R1 R2].
    destruct (IH _ _ _ R1) as (l1 & b1 & w1 & h1 & Q1 & Q2 & Q3 & Q4); [cbn [hi_writers]; rewrite R2; exact OK|].
    exists l1, b1, w1, h1. split; [exact Q1|]. split; [rewrite Q2; cbn [hi_writers]; rewrite R2; reflexivity|]. auto.
  - destruct OK as [L OK]. destruct (WL w L) as (k & l & E). destruct (WR w k l E) as (x & g & X & BG & GD & K). rewrite X.
    destruct (UP w k l x (reset (b_buf x)) [] E X BG (step_reset d2f gs SM k _ l GD)) as [R1 R2].
    destruct (IH _ _ _ R1) as (l1 & b1 & w1 & h1 & Q1 & Q2 & Q3 & Q4); [cbn [hi_writers]; rewrite R2; exact OK|].
    exists l1, b1, w1, h1. split; [exact Q1|]. split; [rewrite Q2; cbn [hi_writers]; rewrite R2; reflexivity|]. auto.
  - destruct OK as [(k & g & W & K & NE) OK]. destruct (WK w k W) as [l E]. destruct (WR w k l E) as (x & g1 & X & BG & GD & K1).
    assert (g1 = g) as -> by congruence. rewrite X. destruct (good_buf d2f gs SM k _ l g GD K) as [V [B1 B2]].
    assert (WB : write_raw bytes (b_buf x) = b_buf x).
    { unfold write_raw. destruct (Nat.eqb_spec (length bytes) (length (b_buf x))) as [Q|Q]; [|reflexivity]. exfalso. apply NE. rewrite Q. exact B2. }
    rewrite WB. destruct (UP w k l x (b_buf x) l E X BG GD) as [R1 R2].
    destruct (IH _ _ _ R1) as (l1 & b1 & w1 & h1 & Q1 & Q2 & Q3 & Q4); [cbn [hi_writers]; rewrite R2; exact OK|].
    exists l1, b1, w1, h1. split; [exact Q1|]. split; [rewrite Q2; cbn [hi_writers]; rewrite R2; reflexivity|]. auto.
  - destruct OK as (L & TL & OK). destruct (WL w L) as (k & l & E). destruct (WR w k l E) as (x & g & X & BG & GD & K).
    rewrite X, BG. unfold gs'. rewrite (prep_nth gs k g K). fold gs'. destruct (IH bufs ws h RE OK) as (l0 & b1 & w1 & h1 & R1 & M1 & R & A). rewrite R. cbn [bind].
    exists (sample_of (prepare_cg g) ts (b_buf x) :: l0), b1, w1, h1. split; [exact R1|]. split; [exact M1|].
    split; [reflexivity|]. intros q. rewrite A. destruct (run_bulk d2f gs' q b1 w1); reflexivity.
Qed.

Lemma raw_added : forall p q w k g bytes ts l, bulk_ok f2d d2f gs [] p -> nth_error (new_writers p) w = Some k -> nth_error gs k = Some g ->
  N.of_nat (length bytes) = record_bytes (chans_of g) ->
  bulk_samples d2f gs' (p ++ BRaw w bytes :: BAdd w ts :: q) = Ok l ->
  exists l1 l2, bulk_samples d2f gs' p = Ok l1 /\ l = l1 ++ sample_of (prepare_cg g) ts bytes :: l2.
Proof.
  intros p q w k g bytes ts l OK W K LN R. unfold bulk_samples in *.
  assert (RE : related (new_bufs gs') [] no_hist).
  { split; [|constructor]. cbn [no_hist hi_group]. intros k1 g1 K1 V1. exists g1. split; [exact K1|]. split; [exact V1|]. split; [reflexivity|constructor]. }
  destruct (bulk_app p _ _ _ RE OK) as (l1 & b1 & w1 & h1 & R1 & M1 & E1 & A). cbn [no_hist hi_writers map app] in M1.
  rewrite A in R. clear A. exists l1. rewrite E1.
  destruct R1 as [RB RW].
  assert (WH : exists c, nth_error (hi_writers h1) w = Some (k, c)).
  { rewrite <- M1 in W. rewrite nth_error_map in W. destruct (nth_error (hi_writers h1) w) as [[k1 c]|]; [|discriminate W]. exists c. cbn in W. congruence. }
  destruct WH as [c WH]. destruct (f2_nth_r _ _ _ _ _ RW w (k, c) WH) as (x & X & BG & GD). cbn [fst snd] in BG, GD.
  destruct (good_buf d2f gs SM k _ c g GD K) as [V [B1 B2]].
  cbn [run_bulk] in R. rewrite X in R.
  assert (WB : write_raw bytes (b_buf x) = bytes) by (unfold write_raw; rewrite (proj2 (Nat.eqb_eq _ _)) by lia; reflexivity).
  rewrite WB in R. unfold put_writer in R. rewrite X in R.
  assert (NX : nth_error (firstn w w1 ++ mkBw (b_group x) bytes :: skipn (S w) w1) w = Some (mkBw (b_group x) bytes)).
  { assert (LW : (w < length w1)%nat) by (apply nth_error_Some; congruence).
    rewrite nth_error_app2 by (rewrite firstn_length; lia). rewrite firstn_length. replace (w - Nat.min w (length w1))%nat with 0%nat by lia. reflexivity. }
  rewrite NX in R. cbn [b_group b_buf] in R. rewrite BG in R. unfold gs' in R. rewrite (prep_nth gs k g K) in R. fold gs' in R.
  destruct (run_bulk d2f gs' q b1 _) as [l2| |]; try discriminate R. cbn [bind] in R. exists l2. split; [reflexivity|]. congruence.
Qed.
End Parts.
