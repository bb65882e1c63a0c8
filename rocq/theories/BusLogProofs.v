(** The channels of a CAN group as the observer finds them in the file. *)
From Coq Require Import String.
From Verif Require Import Base ChannelModel ChannelSpec StreamModel StreamSpec QueueModel QueueSpec BusModel BusSpec CanModel CanSpec SortModel SortSpec
  MetaModel MetaSpec MetaProofs3 MeasModel MeasSpec ValueModel ValueProofs BusLogModel BusLogSpec.
Local Open Scope N_scope.
Local Open Scope list_scope.

(** What the observer uses of a channel. *)
Definition in_group (n : N) (c : chan) : chan :=
  mkChan (ch_type c) (ch_dtype c) (ch_byte c) (ch_bit c) (ch_bits c) (ch_array c) (ch_invalid c) (ch_inval_pos c) n (ch_vlsd_id c).
Definition view (g : cg) (c : cn) : list N * chan := (cn_name c, chan_of g c).
Definition views (g : cg) (l : list cn) : list (list N * chan) := map (view g) (flat_map all_channels l).

Lemma find_view : forall {A B} (f : B -> bool) (v : A -> B) l, find f (map v l) = option_map v (find (fun x => f (v x)) l).
Proof. intros A B f v. induction l as [|x l IH]; [reflexivity|]. cbn [map find]. destruct (f (v x)); auto. Qed.

Definition found (t : can_type) (vs : list (list N * chan)) : list (can_field * chan) :=
  flat_map (fun p =>
    match find (fun v => contains (can_base t ++ lit "." ++ snd p) (fst v)) vs with
    | Some v => [(fst p, snd v)]
    | None => []
    end) observed_names.

Lemma observer_found : forall g t, observer_channels g t = found t (views g (g_cns g)).
Proof.
  intros g t. unfold observer_channels, found. apply flat_map_ext. intros p. unfold views, find_channel. rewrite find_view.
  unfold view at 1. cbn [fst]. destruct (find _ _) as [c|]; reflexivity.
Qed.

Lemma views_app : forall g a b, views g (a ++ b) = views g a ++ views g b.
Proof. intros. unfold views. rewrite flat_map_app, map_app. reflexivity. Qed.
Lemma views_cons : forall g c l, views g (c :: l) = map (view g) (all_channels c) ++ views g l.
Proof. intros. unfold views. cbn [flat_map]. rewrite map_app. reflexivity. Qed.

(** Members of a channel. *)
Definition subs (cx : list comp) : list cn := flat_map (fun x => match x with CArr _ => [] | CSub c => all_channels c end) cx.
Lemma all_cons : forall h cx, all_channels (mkCn h cx) = mkCn h cx :: subs cx.
Proof. reflexivity. Qed.
Lemma arrays_map : forall (f : cn -> cn) cx, arrays_of (map (fun x => match x with CArr a => CArr a | CSub c => CSub (f c) end) cx) = arrays_of cx.
Proof.
  intros f. unfold arrays_of. induction cx as [|[a|c] cx IH]; cbn [map flat_map app]; [reflexivity| |]; rewrite IH; reflexivity.
Qed.

Lemma form_views : forall g c, map (view g) (all_channels (cn_form c)) = map (view g) (all_channels c).
Proof.
  intros g. induction c as [h cx IH] using cn_ind'. cbn [cn_form]. rewrite !all_cons. cbn [map]. f_equal.
  - unfold view. cbn [cn_name chan_of cnh_form n_name n_type n_dtype n_byteoff n_bitoff n_bits n_flags n_invalid]. rewrite arrays_map. reflexivity.
  - unfold subs. induction cx as [|[a|c] cx IH2]; cbn [map flat_map]; [reflexivity| |].
    + apply IH2. intros c I. apply IH. right. exact I.
    + rewrite !map_app, IH2; [|intros c' I; apply IH; right; exact I]. f_equal. apply IH. left. reflexivity.
Qed.
Lemma bare_views : forall g c, map (view g) (all_channels (bare_cn c)) = map (view g) (all_channels c).
Proof.
  intros g. induction c as [h cx IH] using cn_ind'. cbn [bare_cn]. rewrite !all_cons. cbn [map]. f_equal.
  - unfold view. cbn [cn_name chan_of bare_h n_name n_type n_dtype n_byteoff n_bitoff n_bits n_flags n_invalid]. rewrite arrays_map. reflexivity.
  - unfold subs. induction cx as [|[a|c] cx IH2]; cbn [map flat_map]; [reflexivity| |].
    + apply IH2. intros c I. apply IH. right. exact I.
    + rewrite !map_app, IH2; [|intros c' I; apply IH; right; exact I]. f_equal. apply IH. left. reflexivity.
Qed.
Lemma views_form : forall g l, views g (map cn_form l) = views g l.
Proof. intros g. induction l as [|c l IH]; [reflexivity|]. cbn [map]. rewrite !views_cons, IH, form_views. reflexivity. Qed.
Lemma views_bare : forall g l, views g (map bare_cn l) = views g l.
Proof. intros g. induction l as [|c l IH]; [reflexivity|]. cbn [map]. rewrite !views_cons, IH, bare_views. reflexivity. Qed.

(** The member channels. *)
Definition member_views (n : N) (t : can_type) (l : list (can_field * chan)) : list (list N * chan) :=
  map (fun p => (member_name t (fst p), in_group n (snd p))) l.

Lemma can_types : forall t mand st max f c, In (f, c) (can_channels t mand st max) ->
  (ch_type c = FixedLength \/ ch_type c = VariableLength \/ ch_type c = MaxLength) /\
  (ch_dtype c = UnsignedLe \/ ch_dtype c = ByteArray) /\ ch_array c = 1 /\ ch_invalid c = false /\ ch_inval_pos c = 0 /\ ch_vlsd_id c = 0.
Proof.
  intros t mand st max f c I. destruct t, mand, st; cbn [can_channels can_data_channels can_remote_channels can_error_channels can_overload_channels app] in I;
    repeat (destruct I as [I|I]; [injection I as <- <-; repeat split; cbn; auto|]); destruct I.
Qed.
Lemma member_view : forall g t f c,
  (ch_type c = FixedLength \/ ch_type c = VariableLength \/ ch_type c = MaxLength) ->
  (ch_dtype c = UnsignedLe \/ ch_dtype c = ByteArray) -> ch_array c = 1 -> ch_invalid c = false -> ch_inval_pos c = 0 -> ch_vlsd_id c = 0 ->
  view g (member_cn t (f, c)) = (member_name t f, in_group (g_data g) c).
Proof.
  intros g t f [ty dt by_ bi bs ar inv ip cgb vl] T D A I P V. cbn [ch_type ch_dtype ch_array ch_invalid ch_inval_pos ch_vlsd_id] in *. subst.
  unfold view, member_cn, in_group, bare_cnh.
  cbn [cn_name chan_of n_name n_type n_dtype n_byteoff n_bitoff n_bits n_flags n_invalid fst snd ch_type ch_dtype ch_byte ch_bit ch_bits ch_array ch_invalid ch_inval_pos ch_vlsd_id].
  f_equal. change (array_size (arrays_of [])) with 1.
  assert (F : N.testbit (match f with CfBus => 1032 | _ => 1024 end) 1 = false) by (destruct f; reflexivity). rewrite F.
  destruct T as [->|[->| ->]], D as [->| ->]; reflexivity.
Qed.
Lemma members_view : forall g t mand st max,
  map (view g) (subs (map (fun p => CSub (member_cn t p)) (can_channels t mand st max)))
  = member_views (g_data g) t (can_channels t mand st max).
Proof.
  intros g t mand st max. pose proof (can_types t mand st max) as H. revert H. generalize (can_channels t mand st max).
  induction l as [|[f c] l IH]; intros H; [reflexivity|]. unfold subs. cbn [map flat_map].
  unfold member_cn at 1. rewrite all_cons. cbn [subs flat_map app map].
  destruct (H f c (or_introl eq_refl)) as (T & D & A & I & P & V).
  unfold member_views. cbn [map fst snd]. f_equal.
  - apply (member_view g t f c T D A I P V).
  - apply IH. intros f' c' X. apply (H f' c'). right. exact X.
Qed.

(** The group in the file. *)
Definition in_file (e : option QueueModel.enc) (g : cg) : cg := cg_form (counted e (prepare_cg g)).

Lemma file_cns : forall e g, g_cns (in_file e g) = map cn_form (g_cns (prepare_cg g)).
Proof. intros [e|] g; reflexivity. Qed.

Lemma two_views : forall g0 l t mand st max ps, map bare_cn l = can_cns t mand st max ->
  exists x y, views g0 (put_places ps l) = (lit "t", x) :: (can_base t, y) :: member_views (g_data g0) t (can_channels t mand st max).
Proof.
  intros g0 l t mand st max ps E. unfold can_cns in E.
  destruct l as [|[h1 x1] [|[h2 x2] [|? ?]]]; try discriminate E. cbn [map bare_cn] in E.
  assert (E1 : bare_h h1 = bare_cnh 2 1 4 0 0 64 0 (lit "t") /\ x1 = []).
  { destruct x1; [|discriminate E]. unfold time_cn in E. split; [|reflexivity]. congruence. }
  destruct E1 as [E1 ->].
  assert (N1 : n_name h1 = lit "t") by (pose proof (f_equal n_name E1) as X; exact X).
  assert (E2 : bare_h h2 = bare_cnh 0 0 10 0 0 (8 * frame_bytes t mand st max) 1024 (can_base t)) by congruence.
  assert (N2 : n_name h2 = can_base t) by (pose proof (f_equal n_name E2) as X; exact X).
  assert (E3 : map (fun x => match x with CArr a => CArr a | CSub c => CSub (bare_cn c) end) x2
             = map (fun p => CSub (member_cn t p)) (can_channels t mand st max)) by congruence.
  assert (SV : map (view g0) (subs x2) = member_views (g_data g0) t (can_channels t mand st max)).
  { rewrite <- members_view, <- E3. clear. unfold subs. induction x2 as [|[a|c] x2 IH]; cbn [map flat_map]; [reflexivity|exact IH|].
    rewrite !map_app, IH, bare_views. reflexivity. }
  assert (P : exists h1' h2', n_name h1' = lit "t" /\ n_name h2' = can_base t /\ put_places ps [mkCn h1 []; mkCn h2 x2] = [mkCn h1' []; mkCn h2' x2]).
  { destruct ps as [|p1 [|p2 [|p3 ps]]]; cbn [put_places put_place]; do 2 eexists; (split; [|split; [|reflexivity]]); assumption. }
  destruct P as (h1' & h2' & M1 & M2 & ->). rewrite !views_cons, !all_cons. cbn [subs flat_map map app].
  fold (subs x2). rewrite SV. change (views g0 []) with (@nil (list N * chan)). rewrite app_nil_r.
  exists (chan_of g0 (mkCn h1' [])), (chan_of g0 (mkCn h2' x2)). unfold view. cbn [cn_name]. rewrite M1, M2. reflexivity.
Qed.

Lemma file_views : forall e g t mand st max, is_vlsd g = false -> map bare_cn (g_cns g) = can_cns t mand st max ->
  exists x y, views (in_file e g) (g_cns (in_file e g)) = (lit "t", x) :: (can_base t, y) :: member_views (g_data (in_file e g)) t (can_channels t mand st max).
Proof.
  intros e g t mand st max V E. rewrite file_cns, views_form. generalize (in_file e g). intros g0. unfold prepare_cg. rewrite V.
  destruct (prepare_group (chans_of g)) as [[ps nd] ni]. cbn [g_cns]. apply two_views. exact E.
Qed.

(** The fields ParseCanMessage uses. *)
Definition parsed_fields : list can_field :=
  [CfBus; CfId; CfIde; CfDlc; CfLength; CfData; CfFlag FgDir; CfCrc; CfFlag FgSrr; CfFlag FgEdl; CfFlag FgBrs; CfFlag FgEsi;
   CfFlag FgR1; CfFlag FgWakeUp; CfFlag FgSingleWire; CfDur; CfPos].

Lemma names_found : forall t mand st max n x y f, In f parsed_fields ->
  can_find (found t ((lit "t", x) :: (can_base t, y) :: member_views n t (can_channels t mand st max))) f
  = option_map (in_group n) (can_find (can_channels t mand st max) f).
Proof.
  intros t mand st max n x y f I. unfold parsed_fields in I.
  destruct t, mand, st; repeat (destruct I as [<-|I]; [vm_compute; reflexivity|]); destruct I.
Qed.

(** The name RO is found nowhere. *)
Lemma r0_lost : forall t mand st max n x y,
  can_find (found t ((lit "t", x) :: (can_base t, y) :: member_views n t (can_channels t mand st max))) (CfFlag FgR0) = None.
Proof. intros t mand st max n x y. destruct t, mand, st; vm_compute; reflexivity. Qed.

Lemma obs_all_ext : forall a b m, Forall2 (fun f g : can -> res can => forall m, f m = g m) a b -> obs_all a m = obs_all b m.
Proof.
  intros a b m F. revert m. induction F as [|f g a b E F IH]; intros m; [reflexivity|]. cbn [obs_all]. rewrite E.
  destruct (g m); cbn [bind]; auto.
Qed.

Lemma num_in_group : forall n c rec, ch_invalid c = false -> obs_num (in_group n c) rec = obs_num c rec.
Proof. intros n [ty dt by_ bi bs ar inv ip cgb vl] rec E. cbn [ch_invalid] in E. subst inv. destruct dt; reflexivity. Qed.
Lemma bytes_in_group : forall n c data rec, obs_bytes data (in_group n c) rec = obs_bytes data c rec.
Proof. intros n [ty dt by_ bi bs ar inv ip cgb vl] data rec. reflexivity. Qed.

Lemma parse_same : forall st l l' n data vlsd rec,
  (forall f, In f parsed_fields -> can_find l' f = option_map (in_group n) (can_find l f)) ->
  (forall f c, can_find l f = Some c -> ch_invalid c = false) ->
  can_parse st l' data vlsd rec = can_parse st l data vlsd rec.
Proof.
  intros st l l' n data vlsd rec F I.
  assert (O : forall f set, In f parsed_fields -> forall m, obs l' rec f set m = obs l rec f set m).
  { intros f set P m. unfold obs. rewrite (F f P). destruct (can_find l f) as [c|] eqn:E; [|reflexivity]. cbn [option_map].
    rewrite num_in_group by (eapply I; eauto). reflexivity. }
  assert (D : forall m, obs_data st l' data vlsd rec m = obs_data st l data vlsd rec m).
  { intros m. unfold obs_data. rewrite (F CfData) by (cbn; tauto). destruct (can_find l CfData) as [c|]; [|reflexivity]. cbn [option_map].
    rewrite bytes_in_group. reflexivity. }
  unfold can_parse. apply obs_all_ext. unfold obs_flag.
  repeat (apply Forall2_cons; [first [exact D | apply O; cbn; tauto]|]). apply Forall2_nil.
Qed.

Lemma parsed_alike : forall e g t mand st max data vlsd rec, is_vlsd g = false -> map bare_cn (g_cns g) = can_cns t mand st max ->
  can_parse st (observer_channels (in_file e g) t) data vlsd rec = can_parse st (can_channels t mand st max) data vlsd rec.
Proof.
  intros e g t mand st max data vlsd rec V E. rewrite observer_found.
  destruct (file_views e g t mand st max V E) as (x & y & ->).
  apply parse_same with (n := g_data (in_file e g)).
  - intros f I. apply names_found. exact I.
  - intros f c Fc. unfold can_find in Fc. destruct (find _ _) as [[f' c']|] eqn:X; [|discriminate Fc]. apply find_some in X. destruct X as [X _].
    cbn [option_map snd] in Fc. assert (c' = c) as <- by congruence. apply (can_types _ _ _ _ _ _ X).
Qed.
