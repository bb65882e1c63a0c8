(** Proofs about MOST messages: the record and its channels, histories of setter calls. *)
From Verif Require Import Base ChannelModel ChannelSpec QueueModel BusModel BusSpec BusProofs BusBits
  BusRun FlxProofs MostModel MostSpec.
Local Open Scope N_scope.

(* ------------------------------------------------------------------ *)
(** ** Bytes with several fields *)

Lemma small_cases : forall (P : N -> Prop) n x, x < N.of_nat n ->
  Forall P (map N.of_nat (seq 0 n)) -> P x.
Proof.
  intros P n x H HF. rewrite Forall_forall in HF. apply HF.
  apply in_map_iff. exists (N.to_nat x). split; [lia|]. apply in_seq. lia.
Qed.

Ltac each x n := pattern x; apply (small_cases _ n); [assumption|]; cbn [map seq];
  repeat (apply Forall_cons; [|]); try apply Forall_nil.

Lemma speed_flags : forall s a b, s < 2 ^ 2 ->
  let x := w8 (N.lor (w8 (N.lor (N.land s 3) (N.shiftl (N.land (b2n a) 1) 2)))
                 (N.shiftl (N.land (b2n b) 1) 3)) in
  (x / 2 ^ 0) mod 2 ^ 2 = s /\ (x / 2 ^ 2) mod 2 ^ 1 = b2n a /\ (x / 2 ^ 3) mod 2 ^ 1 = b2n b.
Proof. intros s a b H x. subst x. each s 4%nat; destruct a, b; repeat split; reflexivity. Qed.

Lemma two_acks : forall c p, c < 2 ^ 3 -> p < 2 ^ 3 ->
  let x := w8 (N.lor (N.land c 7) (N.shiftl (N.land p 7) 3)) in
  (x / 2 ^ 0) mod 2 ^ 3 = c /\ (x / 2 ^ 3) mod 2 ^ 3 = p.
Proof. intros c p Hc Hp x. subst x. each c 8%nat; each p 8%nat; split; reflexivity. Qed.

Lemma acks_failed : forall c p f, c < 2 ^ 3 -> p < 2 ^ 3 ->
  let x := w8 (N.lor (w8 (N.lor (N.land c 7) (N.shiftl (N.land p 7) 3)))
                 (N.shiftl (N.land (b2n f) 1) 6)) in
  (x / 2 ^ 0) mod 2 ^ 3 = c /\ (x / 2 ^ 3) mod 2 ^ 3 = p /\ (x / 2 ^ 6) mod 2 ^ 1 = b2n f.
Proof.
  intros c p f Hc Hp x. subst x. each c 8%nat; each p 8%nat; destruct f; repeat split; reflexivity.
Qed.

Lemma two_nibbles : forall a c, a < 2 ^ 4 -> c < 2 ^ 4 ->
  let x := w8 (N.lor (N.land a 0x0F) (N.shiftl (N.land c 0x0F) 4)) in
  (x / 2 ^ 0) mod 2 ^ 4 = a /\ (x / 2 ^ 4) mod 2 ^ 4 = c.
Proof. intros a c Ha Hc x. subst x. each a 16%nat; each c 16%nat; split; reflexivity. Qed.

Lemma flag_part : forall b, (b2n b / 2 ^ 0) mod 2 ^ 1 = b2n b.
Proof. intros []; reflexivity. Qed.

Lemma w16_small : forall v, v < 2 ^ 16 -> w16 v = v.
Proof. intros v H. apply N.mod_small. exact H. Qed.

(* ------------------------------------------------------------------ *)
(** ** The record *)

Ltac most_parts :=
  match goal with
  | H: ?s < 2 ^ 2 |- context [w8 (N.lor (w8 (N.lor (N.land ?s 3) (N.shiftl (N.land (b2n ?a) _) _)))
      (N.shiftl (N.land (b2n ?b) _) _))] =>
      let E := fresh in pose proof (speed_flags s a b H) as E; cbv zeta in E; tauto
  | H1: ?c < 2 ^ 3, H2: ?p < 2 ^ 3 |- context [w8 (N.lor (w8 (N.lor (N.land ?c 7) (N.shiftl (N.land ?p 7) 3)))
      (N.shiftl (N.land (b2n ?f) _) _))] =>
      let E := fresh in pose proof (acks_failed c p f H1 H2) as E; cbv zeta in E; tauto
  | H1: ?c < 2 ^ 3, H2: ?p < 2 ^ 3 |- context [w8 (N.lor (N.land ?c 7) (N.shiftl (N.land ?p 7) 3))] =>
      let E := fresh in pose proof (two_acks c p H1 H2) as E; cbv zeta in E; tauto
  | H1: ?c < 2 ^ 4, H2: ?p < 2 ^ 4 |- context [w8 (N.lor (N.land ?c _) (N.shiftl (N.land ?p _) 4))] =>
      let E := fresh in pose proof (two_nibbles c p H1 H2) as E; cbv zeta in E; tauto
  | |- (b2n _ / _) mod _ = _ => apply flag_part
  | |- (_ / 2 ^ 0) mod _ = _ => apply small_part; assumption
  | |- _ mod _ = _ => apply N.mod_small; assumption
  end.

Lemma most_round_trip : forall f2d data t mand m rec0 idx,
  most_ok t m -> bytes_ok rec0 -> (8 <= length rec0)%nat ->
  (forall p, most_payload t m = Some p -> sd_holds data idx p) ->
  exists r, most_to_raw t mand m rec0 = Ok r /\
    (if r_vlsd r then Some (r_buf r) else None) = most_payload t m /\
    good f2d data (most_content m) (most_channels t mand) (firstn 8 rec0) (most_size t mand)
      (stored r idx).
Proof.
  intros f2d data t mand m rec0 idx Hm Hok Hl Hd.
  destruct (resize_facts (most_size t mand) rec0 Hok Hl) as (a & Er & Ha & Haok & H8).
  { destruct t, mand; cbn [most_size]; lia. }
  rewrite <- H8. clear H8 Hl Hok.
  destruct (mo_data _ _ Hm) as (Hd1 & Hd2), (mo_table _ _ Hm) as (Ht1 & Ht2). destruct Hm. destruct m as [
    v_bus v_speed v_node v_tx v_src v_dst v_spec v_recv v_data v_crc v_cack v_pack v_txack
    v_pindex v_failed v_ctype v_state v_device v_bound v_free v_layout v_table v_closed
    v_shutdown]. unfold bytes_ok in *.
  cbn [
    most_bus_ most_speed_ most_node_ most_tx_ most_src_ most_dst_ most_spec_ most_recv_
    most_data_ most_crc_ most_cack_ most_pack_ most_txack_ most_pindex_ most_failed_ most_ctype_
    most_state_ most_device_ most_bound_ most_free_ most_layout_ most_table_ most_closed_
    most_shutdown_] in *.
  destruct t, mand;
    unfold most_to_raw, most_message, most_packet, most_ethernet, most_signal_state, most_max_pos,
      most_bound_desc, most_alloc_table, most_lock_state, most_shutdown, most_counts, most_head;
    cbn [most_size most_payload most_width app most_channels
    most_bus_ most_speed_ most_node_ most_tx_ most_src_ most_dst_ most_spec_ most_recv_
    most_data_ most_crc_ most_cack_ most_pack_ most_txack_ most_pindex_ most_failed_ most_ctype_
    most_state_ most_device_ most_bound_ most_free_ most_layout_ most_table_ most_closed_
    most_shutdown_] in *;
    try rewrite (w16_small _ Ht2);
    (rewrite (run_step _ _ rec0 _ (f_equal Ok Er)); clear Er; explode a Ha; split_bytes).
  all: try specialize (Hd _ eq_refl).
  all: (bus_run_num fits).
  all: (unfold plain, with_data; cbn [bind]; eexists; split; [reflexivity|]; split; [reflexivity|]).
  all: unfold most_message_channels, most_packet_channels, most_ethernet_channels,
    most_mandatory_channels, most_head_channels; cbn [app].
  all: bus_good fits.
  all: cbn [most_content
    most_bus_ most_speed_ most_node_ most_tx_ most_src_ most_dst_ most_spec_ most_recv_
    most_data_ most_crc_ most_cack_ most_pack_ most_txack_ most_pindex_ most_failed_ most_ctype_
    most_state_ most_device_ most_bound_ most_free_ most_layout_ most_table_ most_closed_
    most_shutdown_]; bus_read fits.
  all: most_parts.
Qed.

(* ------------------------------------------------------------------ *)
(** ** Histories *)

Lemma most_new_ok : forall t, most_ok t most_new.
Proof.
  intros t. constructor; try reflexivity; try (destruct t; reflexivity).
  all: split; [apply Forall_nil | reflexivity].
Qed.

Lemma count_ok : forall n k, n < 2 ^ 16 -> k < 2 ^ 16 ->
  (if n <? w32 k then w16 (w32 k) else n) = N.max n k /\
  (if n <? w32 k then w16 (w32 k) else n) < 2 ^ 16.
Proof.
  intros n k Hn Hk.
  assert (E1: w32 k = k).
  { apply N.mod_small. eapply N.lt_trans; [exact Hk|reflexivity]. }
  rewrite E1, (w16_small k Hk). destruct (N.ltb_spec n k); [|split]; try lia.
Qed.

Lemma most_apply_ok : forall t m o, most_ok t m -> most_arg_ok t o -> most_ok t (most_apply m o).
Proof.
  intros t m o [] Ho. destruct o; try (constructor; assumption).
  constructor; try assumption.
  - exact (proj2 (count_ok _ _ mo_spec (proj2 Ho))).
  - exact (proj2 (count_ok _ _ mo_recv (proj2 Ho))).
Qed.

Lemma most_step : forall m o f, f <> MxSpec -> f <> MxRecv ->
  most_content (most_apply m o) f =
  match most_effect o f with Some v => v | None => most_content m f end.
Proof. intros m o f H1 H2. destruct o, f; try contradiction; reflexivity. Qed.

Lemma most_history : forall t ops m f, most_ok t m -> Forall (most_arg_ok t) ops ->
  most_ok t (fold_left most_apply ops m) /\
  (f <> MxSpec -> f <> MxRecv ->
   most_content (fold_left most_apply ops m) f =
   match most_last ops f with Some v => v | None => most_content m f end).
Proof.
  induction ops as [|o ops IH]; intros m f Hm Ho; [split; [exact Hm | reflexivity]|].
  cbn [fold_left most_last].
  destruct (IH (most_apply m o) f (most_apply_ok t m o Hm (Forall_inv Ho)) (Forall_inv_tail Ho))
    as (H1 & H2).
  split; [exact H1|]. intros N1 N2. rewrite (H2 N1 N2).
  destruct (most_last ops f); [reflexivity|]. apply most_step; assumption.
Qed.

Lemma most_counts_history : forall t ops m, most_ok t m -> Forall (most_arg_ok t) ops ->
  most_spec_ (fold_left most_apply ops m) =
    fold_left (fun n o => match sets_spec o with
                        | Some v => v
                        | None => match o with MoData l => N.max n (N.of_nat (length l)) | _ => n end
                        end) ops (most_spec_ m) /\
  most_recv_ (fold_left most_apply ops m) =
    fold_left (fun n o => match sets_recv o with
                        | Some v => v
                        | None => match o with MoData l => N.max n (N.of_nat (length l)) | _ => n end
                        end) ops (most_recv_ m).
Proof.
  induction ops as [|o ops IH]; intros m Hm Ho; [split; reflexivity|].
  cbn [fold_left].
  destruct (IH (most_apply m o) (most_apply_ok t m o Hm (Forall_inv Ho)) (Forall_inv_tail Ho))
    as (H1 & H2).
  rewrite H1, H2. destruct Hm.
  destruct o; try (split; reflexivity).
  pose proof (Forall_inv Ho) as (_ & Hl). cbn [sets_spec sets_recv].
  split; f_equal; [exact (proj1 (count_ok _ _ mo_spec Hl)) | exact (proj1 (count_ok _ _ mo_recv Hl))].
Qed.
