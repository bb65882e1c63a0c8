(** Proofs about the observers. *)
From Verif Require Import Base StreamModel StreamSpec StreamProps ObsModel ObsSpec.
Local Open Scope N_scope.

(* ------------------------------------------------------------------ *)
(** ** Attaching and detaching *)

Definition count (p : ptr) (l : list ptr) : nat := length (filter (fun q => q =? p) l).

Lemma count_app : forall p a b, count p (a ++ b) = (count p a + count p b)%nat.
Proof. intros. unfold count. rewrite filter_app, app_length. reflexivity. Qed.

Lemma count_out : forall p q l, count p (filter (fun x => negb (x =? q)) l) = if p =? q then 0%nat else count p l.
Proof.
  intros p q. induction l as [|x l IH].
  { cbn [filter]. destruct (p =? q); reflexivity. }
  unfold count in *. cbn [filter]. destruct (N.eqb_spec x q) as [->|Hx]; cbn [negb].
  - rewrite IH. destruct (N.eqb_spec p q) as [->|Hp]; [reflexivity|].
    destruct (N.eqb_spec q p); [congruence|reflexivity].
  - cbn [filter]. destruct (N.eqb_spec x p) as [->|Hxp]; cbn [length]; rewrite IH;
      destruct (N.eqb_spec p q); congruence.
Qed.

Lemma live_none : forall l f p, p <> 0 ->
  fold_left (fun f q => if q =? 0 then f else set_live f q false) l f p
  = match count p l with O => f p | _ => false end.
Proof.
  induction l as [|x l IH]; intros f p Hp; [reflexivity|]. cbn [fold_left].
  rewrite IH by exact Hp. unfold count. cbn [filter].
  destruct (N.eqb_spec x p) as [->|Hx].
  - cbn [length]. destruct (length (filter (fun q => q =? p) l)); [|reflexivity].
    rewrite (proj2 (N.eqb_neq p 0) Hp). unfold set_live. rewrite N.eqb_refl. reflexivity.
  - destruct (length (filter (fun q => q =? p) l)); [|reflexivity].
    destruct (x =? 0); [reflexivity|]. unfold set_live.
    destruct (N.eqb_spec p x); [congruence|reflexivity].
Qed.

Lemma att_ok : forall p ops, p <> 0 ->
  let st := fold_left (att_step p) ops (false, 0%nat) in
  let g := fold_left obs_apply ops dgo_new in
  do_live g p = fst st /\ count p (do_list g) = snd st /\ (fst st = true -> (0 < snd st)%nat).
Proof.
  intros p ops Hp. cbv zeta. induction ops as [|o ops IH] using rev_ind.
  { split; [reflexivity|]. split; [reflexivity|discriminate]. }
  rewrite !fold_left_app. cbn [fold_left].
  set (st := fold_left (att_step p) ops (false, 0%nat)) in *.
  set (g := fold_left obs_apply ops dgo_new) in *. clearbody st g. destruct st as [lv n]. cbn [fst snd] in IH.
  destruct IH as (I1 & I2 & I3).
  destruct o as [q|q|q|]; cbn [obs_apply att_step].
  - unfold obs_new, attach. cbn [do_live do_list]. rewrite count_app, I2. unfold set_live, count.
    cbn [filter]. rewrite (N.eqb_sym p q). destruct (q =? p); cbn [fst snd length].
    + split; [reflexivity|]. split; [lia|intros _; lia].
    + split; [exact I1|]. split; [lia|exact I3].
  - unfold obs_attach. destruct (N.eqb_spec q p) as [->|Hq]; cbn [andb fst].
    + rewrite I1. destruct lv; cbn [fst snd]; [|split; [exact I1|split; [exact I2|discriminate]]].
      unfold attach. cbn [do_live do_list]. rewrite count_app, I2. unfold count. cbn [filter].
      rewrite N.eqb_refl. cbn [length]. split; [exact I1|]. split; [lia|intros _; lia].
    + destruct (do_live g q); cbn [fst snd]; [|split; [exact I1|split; [exact I2|exact I3]]].
      unfold attach. cbn [do_live do_list]. rewrite count_app, I2. unfold count. cbn [filter].
      destruct (N.eqb_spec q p); [congruence|]. cbn [length].
      split; [exact I1|]. split; [lia|exact I3].
  - unfold obs_detach. destruct (N.eqb_spec q p) as [->|Hq]; cbn [andb fst].
    + rewrite I1. destruct lv; cbn [fst snd]; [|split; [exact I1|split; [exact I2|discriminate]]].
      cbn [detach do_live do_list]. rewrite count_out, N.eqb_refl. unfold set_live. rewrite N.eqb_refl.
      split; [reflexivity|]. split; [reflexivity|discriminate].
    + destruct (do_live g q); cbn [fst snd]; [|split; [exact I1|split; [exact I2|exact I3]]].
      cbn [detach do_live do_list]. rewrite count_out. unfold set_live.
      rewrite (proj2 (N.eqb_neq p q)) by congruence. split; [exact I1|]. split; [exact I2|exact I3].
  - unfold detach_all. cbn [do_live do_list fst snd]. rewrite live_none by exact Hp. rewrite I2, I1.
    split; [|split; [reflexivity|discriminate]].
    destruct n; [|reflexivity]. destruct lv; [specialize (I3 eq_refl); lia|reflexivity].
Qed.

(* ------------------------------------------------------------------ *)
(** ** Notifying *)

Lemma call_all_ask : forall W (call : ptr -> event -> W -> bool * W) l e w,
  call_all call l e w = ask call (filter (fun p => negb (p =? 0)) l) e w.
Proof.
  intros W call. induction l as [|p l IH]; intros e w; [reflexivity|].
  cbn [call_all filter]. destruct (p =? 0); cbn [negb]; [apply IH|].
  cbn [ask]. destruct (call p e w) as [go w1]. cbn [fst snd]. destruct go; [apply IH|reflexivity].
Qed.

Notation wants := subscribers.

Lemma fast_entries : forall needs l groups fast,
  (forall x, In x fast -> snd x = wants needs l (fst x) /\ snd x <> []) ->
  let f := fold_left (fast_step needs l) groups fast in
  (forall x, In x f -> snd x = wants needs l (fst x) /\ snd x <> []) /\
  (forall id, (exists x, In x f /\ fst x = id) <->
              ((exists x, In x fast /\ fst x = id) \/ (In id groups /\ wants needs l id <> []))).
Proof.
  intros needs l. induction groups as [|id groups IH]; intros fast H; cbv zeta.
  { split; [exact H|]. intros id. cbn [fold_left]. split; [auto|]. intros [X|(X & _)]; [exact X|destruct X]. }
  cbn [fold_left].
  assert (S1: forall x, In x (fast_step needs l fast id) -> snd x = wants needs l (fst x) /\ snd x <> []).
  { intros x Hx. unfold fast_step in Hx. fold (wants needs l id) in Hx.
    destruct (wants needs l id) eqn:E; [apply H; exact Hx|].
    destruct (existsb _ _); [apply H; exact Hx|].
    apply in_app_or in Hx. destruct Hx as [Hx|[<-|[]]]; [apply H; exact Hx|].
    cbn [fst snd]. rewrite E. split; [reflexivity|discriminate]. }
  assert (S2: forall i, (exists x, In x (fast_step needs l fast id) /\ fst x = i) <->
               ((exists x, In x fast /\ fst x = i) \/ (i = id /\ wants needs l id <> []))).
  { intros i. unfold fast_step. fold (wants needs l id).
    destruct (wants needs l id) eqn:E.
    { split; [auto|]. intros [X|(_ & X)]; [exact X|congruence]. }
    destruct (existsb (fun e => fst e =? id) fast) eqn:F.
    - split; [auto|]. intros [X|(-> & _)]; [exact X|].
      apply existsb_exists in F. destruct F as (x & F1 & F2). apply N.eqb_eq in F2. eauto.
    - split.
      + intros (x & Hx & Hi). apply in_app_or in Hx. destruct Hx as [Hx|[<-|[]]]; [eauto|].
        right. split; [symmetry; exact Hi|discriminate].
      + intros [(x & Hx & Hi)|(-> & _)].
        * exists x. split; [apply in_or_app; left; exact Hx|exact Hi].
        * eexists. split; [apply in_or_app; right; left; reflexivity|reflexivity]. }
  destruct (IH _ S1) as (A & B). split; [exact A|].
  intros i. rewrite B, S2. cbn [In]. clear. intuition congruence.
Qed.

Lemma find_fast : forall needs l fast id,
  (forall x, In x fast -> snd x = wants needs l (fst x) /\ snd x <> []) ->
  find (fun x => fst x =? id) fast =
  if existsb (fun x => fst x =? id) fast then Some (id, wants needs l id) else None.
Proof.
  intros needs l fast id H. destruct (find _ fast) eqn:F.
  - apply find_some in F. destruct F as (F1 & F2).
    rewrite (proj2 (existsb_exists _ _)) by eauto.
    apply N.eqb_eq in F2. destruct (H _ F1) as (E & _). destruct p. cbn in *. congruence.
  - destruct (existsb _ fast) eqn:X; [|reflexivity].
    apply existsb_exists in X. destruct X as (x & X1 & X2).
    rewrite (find_none _ _ F x X1) in X2. discriminate.
Qed.

(** The groups some attached observer subscribes to. *)
Definition two_groups (needs : ptr -> N -> bool) (l : list ptr) (groups : list N) : Prop :=
  exists a b, In a groups /\ In b groups /\ a <> b /\ wants needs l a <> [] /\ wants needs l b <> [].

Lemma ask_true : forall W (call : ptr -> event -> W -> bool * W) e w,
  ask call [] e w = (true, w).
Proof. reflexivity. Qed.

Lemma wants_none : forall needs l id, wants needs l id = [] <->
  forall p, In p l -> p <> 0 -> needs p id = false.
Proof.
  intros needs l id. unfold subscribers. split.
  - intros H p Hp H0. destruct (needs p id) eqn:E; [|reflexivity].
    assert (X: In p (filter (fun p => negb (p =? 0) && needs p id) l)).
    { apply filter_In. split; [exact Hp|]. rewrite E, (proj2 (N.eqb_neq p 0) H0). reflexivity. }
    rewrite H in X. destruct X.
  - intros H. destruct (filter (fun p => negb (p =? 0) && needs p id) l) as [|p r] eqn:E; [reflexivity|].
    assert (X: In p (p :: r)) by (left; reflexivity). rewrite <- E in X. apply filter_In in X.
    destruct X as (X1 & X2). apply andb_prop in X2. destruct X2 as (X2 & X3).
    rewrite (H p X1) in X3; [discriminate|]. destruct (N.eqb_spec p 0); [discriminate|assumption].
Qed.

Lemma notify_wants : forall W (call : ptr -> event -> W -> bool * W) needs groups g e w,
  In (e_id e) groups ->
  (two_groups needs (do_list g) groups \/
   (exists p, In p (do_list g) /\ p <> 0) /\
   (forall p, In p (do_list g) -> p <> 0 -> needs p (e_id e) = true)) ->
  notify_obs call (init_fast needs groups g) e w = ask call (wants needs (do_list g) (e_id e)) e w.
Proof.
  intros W call needs groups g e w He Hc.
  destruct (fast_entries needs (do_list g) groups []) as (A & B); [intros x []|].
  unfold notify_obs, init_fast. cbn [do_fast do_list].
  set (f := fold_left (fast_step needs (do_list g)) groups []) in *. clearbody f.
  assert (Fe: existsb (fun x => fst x =? e_id e) f = negb (match wants needs (do_list g) (e_id e) with [] => true | _ => false end)).
  { destruct (wants needs (do_list g) (e_id e)) eqn:E; cbn [negb].
    - apply Bool.not_true_iff_false. intros X. apply existsb_exists in X. destruct X as (x & X1 & X2).
      apply N.eqb_eq in X2. destruct (A x X1) as (Y1 & Y2). rewrite X2 in Y1. congruence.
    - apply existsb_exists. destruct (proj2 (B (e_id e))) as (x & X1 & X2).
      + right. split; [exact He|]. rewrite E. discriminate.
      + exists x. rewrite X2. split; [exact X1|apply N.eqb_refl]. }
  assert (Many: match find (fun x => fst x =? e_id e) f with
     | Some x => call_all call (snd x) e w | None => (true, w) end
     = ask call (wants needs (do_list g) (e_id e)) e w).
  { rewrite (find_fast needs (do_list g) f _ A), Fe.
    destruct (wants needs (do_list g) (e_id e)) as [|p r] eqn:E; cbn [negb]; [reflexivity|].
    cbn [snd]. rewrite call_all_ask. f_equal. rewrite <- E. unfold subscribers.
    clear. induction (do_list g) as [|x t IH]; [reflexivity|]. cbn [filter].
    destruct (negb (x =? 0)) eqn:X; cbn [andb]; [|exact IH].
    destruct (needs x (e_id e)); [|exact IH]. cbn [filter]. rewrite X, IH. reflexivity. }
  destruct f as [|x [|y f]].
  - exfalso. destruct Hc as [(a & _ & Ha & _ & _ & Wa & _)|((p & P1 & P2) & P3)].
    + destruct (proj2 (B a)) as (x & [] & _). right. auto.
    + destruct (proj2 (B (e_id e))) as (x & [] & _). right. split; [exact He|].
      intros X. specialize (P3 p P1 P2). rewrite (proj1 (wants_none _ _ _) X p P1 P2) in P3. discriminate.
  - destruct Hc as [(a & b & Ha & Hb & Nab & Wa & Wb)|((p & P1 & P2) & P3)].
    + exfalso. destruct (proj2 (B a)) as (u & U1 & U2); [right; auto|].
      destruct (proj2 (B b)) as (v & V1 & V2); [right; auto|].
      destruct U1 as [<-|[]], V1 as [<-|[]]. congruence.
    + rewrite call_all_ask. f_equal. unfold subscribers. clear - P3.
      induction (do_list g) as [|x t IH]; [reflexivity|]. cbn [filter].
      destruct (N.eqb_spec x 0) as [->|Hx]; cbn [negb andb].
      * apply IH. intros p Hp. apply P3. right. exact Hp.
      * rewrite (P3 x) by (try (left; reflexivity); exact Hx). f_equal. apply IH.
        intros p Hp. apply P3. right. exact Hp.
  - exact Many.
Qed.

(** Only one group has subscribers: every attached observer is asked. *)
Lemma notify_one : forall W (call : ptr -> event -> W -> bool * W) needs groups g e w a,
  In a groups -> wants needs (do_list g) a <> [] ->
  (forall b, In b groups -> wants needs (do_list g) b <> [] -> b = a) ->
  notify_obs call (init_fast needs groups g) e w =
  ask call (filter (fun p => negb (p =? 0)) (do_list g)) e w.
Proof.
  intros W call needs groups g e w a Ha Wa U.
  assert (N1: forall gr fast, (forall x, In x fast -> fst x = a) -> (length fast <= 1)%nat ->
     (forall b, In b gr -> wants needs (do_list g) b <> [] -> b = a) ->
     let f := fold_left (fast_step needs (do_list g)) gr fast in
     (length f <= 1)%nat).
  { induction gr as [|b gr IH]; intros fast F1 F2 F3; cbv zeta; [exact F2|].
    cbn [fold_left]. apply IH.
    - intros x Hx. unfold fast_step in Hx. fold (wants needs (do_list g) b) in Hx.
      destruct (wants needs (do_list g) b) eqn:E; [apply F1; exact Hx|].
      destruct (existsb _ _); [apply F1; exact Hx|].
      apply in_app_or in Hx. destruct Hx as [Hx|[<-|[]]]; [apply F1; exact Hx|].
      cbn [fst]. apply F3; [left; reflexivity|]. rewrite E. discriminate.
    - unfold fast_step. fold (wants needs (do_list g) b).
      destruct (wants needs (do_list g) b) eqn:E; [exact F2|].
      destruct (existsb (fun e => fst e =? b) fast) eqn:X; [exact F2|].
      destruct fast as [|y fast]; [cbn; lia|].
      exfalso. assert (Y: fst y = a) by (apply F1; left; reflexivity).
      assert (b = a) by (apply F3; [left; reflexivity|rewrite E; discriminate]).
      cbn [existsb] in X. rewrite Y, H, N.eqb_refl in X. discriminate.
    - intros c Hc. apply F3. right. exact Hc. }
  specialize (N1 groups [] ltac:(intros x []) ltac:(cbn; lia) U). cbv zeta in N1.
  destruct (fast_entries needs (do_list g) groups []) as (A & B); [intros x []|].
  unfold notify_obs, init_fast. cbn [do_fast do_list].
  set (f := fold_left (fast_step needs (do_list g)) groups []) in *. clearbody f.
  destruct f as [|x [|y f]].
  - exfalso. destruct (proj2 (B a)) as (x & [] & _). right. auto.
  - apply call_all_ask.
  - cbn [length] in N1. lia.
Qed.

(** Nobody subscribes: nobody is asked and the reading stops. *)
Lemma notify_nobody : forall W (call : ptr -> event -> W -> bool * W) needs groups g e w,
  (forall a, In a groups -> wants needs (do_list g) a = []) ->
  notify_obs call (init_fast needs groups g) e w = (false, w).
Proof.
  intros W call needs groups g e w H.
  destruct (fast_entries needs (do_list g) groups []) as (A & B); [intros x []|].
  unfold notify_obs, init_fast. cbn [do_fast do_list].
  set (f := fold_left (fast_step needs (do_list g)) groups []) in *. clearbody f.
  destruct f as [|x f]; [reflexivity|]. exfalso.
  destruct (proj1 (B (fst x))) as [(y & [] & _)|(X1 & X2)].
  - exists x. split; [left; reflexivity|reflexivity].
  - apply X2, H, X1.
Qed.

(* ------------------------------------------------------------------ *)
(** ** The lists of a channel observer *)

Lemma store_length : forall A (l : list A) ix v, length (store l ix v) = length l.
Proof.
  intros. unfold store. destruct (N.ltb_spec ix (N.of_nat (length l))); [|reflexivity].
  rewrite !app_length, firstn_length, skipn_length. cbn [length]. lia.
Qed.

Lemma nth_error_skip : forall A (l : list A) n k, nth_error (skipn n l) k = nth_error l (n + k).
Proof.
  induction l as [|x l IH]; intros n k.
  - rewrite skipn_nil. destruct k, n; reflexivity.
  - destruct n as [|n]; [reflexivity|]. cbn [skipn Nat.add nth_error]. apply IH.
Qed.

Lemma nth_error_first : forall A (l : list A) n k, (k < n)%nat -> nth_error (firstn n l) k = nth_error l k.
Proof.
  induction l as [|x l IH]; intros n k H.
  - rewrite firstn_nil. reflexivity.
  - destruct n as [|n]; [lia|]. destruct k as [|k]; [reflexivity|].
    cbn [firstn nth_error]. apply IH. lia.
Qed.

Lemma store_nth : forall A (l : list A) ix v k, (k < length l)%nat ->
  nth_error (store l ix v) k = if ix =? N.of_nat k then Some v else nth_error l k.
Proof.
  intros A l ix v k Hk. unfold store. destruct (N.ltb_spec ix (N.of_nat (length l))) as [H|H].
  - assert (L: length (firstn (N.to_nat ix) l) = N.to_nat ix) by (rewrite firstn_length; lia).
    destruct (N.eqb_spec ix (N.of_nat k)) as [->|Hne].
    + rewrite nth_error_app2 by lia. rewrite L, Nnat.Nat2N.id, Nat.sub_diag. reflexivity.
    + destruct (Nat.lt_ge_cases k (N.to_nat ix)).
      * rewrite nth_error_app1 by lia. apply nth_error_first. lia.
      * rewrite nth_error_app2 by lia. rewrite L.
        destruct (k - N.to_nat ix)%nat as [|j] eqn:J; [lia|].
        cbn [app nth_error]. rewrite nth_error_skip. f_equal. lia.
  - destruct (N.eqb_spec ix (N.of_nat k)); [lia|reflexivity].
Qed.

(** The view of one cell. *)
Definition cell {T} (s : cobs T) (k : nat) : option T * option bool * option N :=
  (nth_error (b_values s) k, nth_error (b_valids s) k, nth_error (b_offsets s) k).
Definition lengths {T} (s : cobs T) : nat * nat * nat :=
  (length (b_values s), length (b_valids s), length (b_offsets s)).

(** A loop over the array indices whose body touches, for each index, its own cell only. *)
Lemma each_other : forall T n m (ix : N -> N) (body : N -> cobs T -> cobs T) (s : cobs T) k,
  (forall i s, lengths (body i s) = lengths s) ->
  (forall i s, N.of_nat m <= i -> i < N.of_nat (m + n) -> ix i <> N.of_nat k -> cell (body i s) k = cell s k) ->
  (forall i, N.of_nat m <= i -> i < N.of_nat (m + n) -> ix i <> N.of_nat k) ->
  lengths (fold_left (fun s i => body (N.of_nat i) s) (seq m n) s) = lengths s /\
  cell (fold_left (fun s i => body (N.of_nat i) s) (seq m n) s) k = cell s k.
Proof.
  intros T n. induction n as [|n IH]; intros m ix body s k H1 H2 H3; [split; reflexivity|].
  cbn [seq fold_left]. destruct (IH (S m) ix body (body (N.of_nat m) s) k) as (A & B).
  - exact H1.
  - intros i s' L1 L2. apply H2; lia.
  - intros i L1 L2. apply H3; lia.
  - rewrite A, B. split; [apply H1|]. apply H2; [lia|lia|apply H3; lia].
Qed.

Lemma each_cell : forall T asize (ix : N -> N) (body : N -> cobs T -> cobs T) (s : cobs T) k j,
  (forall i s, lengths (body i s) = lengths s) ->
  (forall i s, i < asize -> ix i <> N.of_nat k -> cell (body i s) k = cell s k) ->
  (forall i, i < asize -> ix i = N.of_nat k -> i = j) ->
  j < asize ->
  lengths (each asize body s) = lengths s /\
  exists s', lengths s' = lengths s /\ cell s' k = cell s k /\ cell (each asize body s) k = cell (body j s') k.
Proof.
  intros T asize ix body s k j H1 H2 H3 Hj. unfold each.
  assert (E: seq 0 (N.to_nat asize) = seq 0 (N.to_nat j) ++ [N.to_nat j] ++ seq (S (N.to_nat j)) (N.to_nat asize - S (N.to_nat j))).
  { replace (N.to_nat asize) with (N.to_nat j + S (N.to_nat asize - S (N.to_nat j)))%nat at 1 by lia.
    rewrite seq_app. reflexivity. }
  rewrite E, !fold_left_app. cbn [fold_left]. rewrite Nnat.N2Nat.id.
  destruct (each_other T (N.to_nat j) 0 ix body s k) as (A1 & A2).
  { exact H1. } { intros i s' _ L. apply H2. lia. }
  { intros i _ L X. apply H3 in X; lia. }
  set (s' := fold_left _ (seq 0 (N.to_nat j)) s) in *. clearbody s'.
  destruct (each_other T (N.to_nat asize - S (N.to_nat j)) (S (N.to_nat j)) ix body (body j s') k) as (B1 & B2).
  { exact H1. } { intros i s2 _ L. apply H2. lia. }
  { intros i L1 L2 X. apply H3 in X; lia. }
  split; [rewrite B1, H1; exact A1|]. exists s'. repeat split; assumption.
Qed.

Lemma each_lengths : forall T asize (body : N -> cobs T -> cobs T) (s : cobs T),
  (forall i s, lengths (body i s) = lengths s) -> lengths (each asize body s) = lengths s.
Proof.
  intros T asize body s H. unfold each. generalize (seq 0 (N.to_nat asize)). intros l. revert s.
  induction l as [|i l IH]; intros s; [reflexivity|]. cbn [fold_left]. rewrite IH. apply H.
Qed.

Lemma each_outside : forall T asize (ix : N -> N) (body : N -> cobs T -> cobs T) (s : cobs T) k,
  (forall i s, i < asize -> ix i <> N.of_nat k -> cell (body i s) k = cell s k) ->
  (forall i, i < asize -> ix i <> N.of_nat k) ->
  cell (each asize body s) k = cell s k.
Proof.
  intros T asize ix body s k H1 H2. unfold each.
  assert (X: forall l s, (forall i, In i l -> N.of_nat i < asize) ->
     cell (fold_left (fun s i => body (N.of_nat i) s) l s) k = cell s k).
  { induction l as [|i l IH]; intros s0 H; [reflexivity|]. cbn [fold_left]. rewrite IH.
    - apply H1; [apply H; left; reflexivity|]. apply H2, H. left. reflexivity.
    - intros j Hj. apply H. right. exact Hj. }
  apply X. intros i Hi. apply in_seq in Hi. lia.
Qed.

(* ------------------------------------------------------------------ *)
(** ** One event *)

Lemma index_plain : forall asize s i, s * asize + asize <= 2 ^ 64 -> i < asize ->
  sample_index asize s i = s * asize + i.
Proof.
  intros asize s i H Hi. unfold sample_index, w64.
  rewrite (N.mod_small (s * asize)) by lia. apply N.mod_small. lia.
Qed.

Lemma index_inj : forall asize s i s' i', i < asize -> i' < asize ->
  s * asize + i = s' * asize + i' -> s = s' /\ i = i'.
Proof.
  intros asize s i s' i' Hi Hi' E.
  assert (s = s').
  { rewrite <- (N.div_add_l s asize i) in * || idtac.
    assert (A: (s * asize + i) / asize = s) by (symmetry; apply (N.div_unique _ _ _ i); lia).
    assert (B: (s' * asize + i') / asize = s') by (symmetry; apply (N.div_unique _ _ _ i'); lia).
    congruence. }
  subst. lia.
Qed.

Definition put3 {T} (ix : N) (v : option T) (b : option bool) (o : option N) (s : cobs T) : cobs T :=
  mkObs (match v with Some x => store (b_values s) ix x | None => b_values s end)
        (match b with Some x => store (b_valids s) ix x | None => b_valids s end)
        (match o with Some x => store (b_offsets s) ix x | None => b_offsets s end).

Lemma put3_lengths : forall T ix v b o (s : cobs T), lengths (put3 ix v b o s) = lengths s.
Proof.
  intros. unfold lengths, put3. destruct v, b, o; cbn [b_values b_valids b_offsets];
    rewrite ?store_length; reflexivity.
Qed.

Lemma store_nth_any : forall A (l : list A) ix v k,
  nth_error (store l ix v) k =
  if (ix =? N.of_nat k) && (k <? length l)%nat then Some v else nth_error l k.
Proof.
  intros. destruct (Nat.ltb_spec k (length l)) as [H|H].
  - rewrite store_nth by exact H. rewrite Bool.andb_true_r. reflexivity.
  - rewrite Bool.andb_false_r. rewrite !(proj2 (nth_error_None _ _)); auto. rewrite store_length. exact H.
Qed.

Lemma put3_cell_other : forall T ix v b o (s : cobs T) k, ix <> N.of_nat k -> cell (put3 ix v b o s) k = cell s k.
Proof.
  intros T ix v b o s k H. unfold cell, put3. cbn [b_values b_valids b_offsets].
  destruct v, b, o; rewrite ?store_nth_any, ?(proj2 (N.eqb_neq _ _) H); reflexivity.
Qed.

(** What an event does to a cell of its own sample: the new value, validity and offset. *)
Definition effect {T} (h : chan T) (rv : bool) (e : event) (i : N) : option T * option bool * option N :=
  match h_kind h with
  | KVirtual => if h_rid h =? e_id e then (Some (h_virt h (e_sample e)), Some true, None) else (None, None, None)
  | KVariable =>
      if h_rid h =? e_id e then
        if rv && (h_vlsd h =? 0)
        then (Some (snd (h_dec h (e_rec e) i)), Some (fst (h_dec h (e_rec e) i)), Some (snd (h_off h (e_rec e) i)))
        else (None, Some (fst (h_off h (e_rec e) i)), Some (snd (h_off h (e_rec e) i)))
      else if (0 <? h_vlsd h) && (e_id e =? h_vlsd h)
      then (Some (snd (h_dec h (e_rec e) i)), Some (fst (h_dec h (e_rec e) i)), None) else (None, None, None)
  | KFixed =>
      if h_rid h =? e_id e
      then (Some (snd (h_dec h (e_rec e) i)), Some (fst (h_dec h (e_rec e) i)), None) else (None, None, None)
  end.

Definition over {A} (n : option A) (old : option A) : option A :=
  match old, n with Some _, Some x => Some x | _, _ => old end.
Definition over3 {T} (n : option T * option bool * option N) (old : option T * option bool * option N) :=
  (over (fst (fst n)) (fst (fst old)), over (snd (fst n)) (snd (fst old)), over (snd n) (snd old)).

Lemma store_over : forall A (l : list A) k v, nth_error (store l (N.of_nat k) v) k = over (Some v) (nth_error l k).
Proof.
  intros. rewrite store_nth_any, N.eqb_refl. cbn [andb].
  destruct (Nat.ltb_spec k (length l)) as [H|H].
  - apply nth_error_Some in H. destruct (nth_error l k); [reflexivity|congruence].
  - rewrite (proj2 (nth_error_None _ _) H). reflexivity.
Qed.

Lemma put3_cell_same : forall T v b o (s : cobs T) k,
  cell (put3 (N.of_nat k) v b o s) k = over3 (v, b, o) (cell s k).
Proof.
  intros. unfold cell, over3, put3. cbn [b_values b_valids b_offsets fst snd].
  destruct v, b, o; rewrite ?store_over; unfold over;
    repeat match goal with |- context [nth_error ?l k] => destruct (nth_error l k) end; reflexivity.
Qed.

Lemma put_twice : forall T ix v (b1 b2 : bool) (o : N) (s : cobs T) k,
  lengths (put_value ix v (put_valid ix b2 (put_valid ix b1 (put_off ix o s)))) = lengths s /\
  cell (put_value ix v (put_valid ix b2 (put_valid ix b1 (put_off ix o s)))) k
  = cell (put3 ix (Some v) (Some b2) (Some o) s) k.
Proof.
  intros. unfold lengths, cell, put_value, put_valid, put_off, put3. cbn [b_values b_valids b_offsets].
  split; [rewrite !store_length; reflexivity|]. rewrite !store_nth_any, store_length.
  destruct ((ix =? N.of_nat k) && (k <? length (b_valids s))%nat); reflexivity.
Qed.

Lemma cell_none : forall T (s : cobs T) k, over3 (None, None, None) (cell s k) = cell s k.
Proof. intros. unfold over3, cell. cbn [fst snd over]. repeat destruct (nth_error _ k); reflexivity. Qed.

Lemma on_sample_cell0 : forall T (h : chan T) rv e (s : cobs T) sample i,
  i < h_asize h -> sample * h_asize h + h_asize h <= 2 ^ 64 ->
  e_sample e * h_asize h + h_asize h <= 2 ^ 64 ->
  lengths (on_sample h rv e s) = lengths s /\
  cell (on_sample h rv e s) (N.to_nat (sample_index (h_asize h) sample i))
  = if e_sample e =? sample
    then over3 (effect h rv e i) (cell s (N.to_nat (sample_index (h_asize h) sample i)))
    else cell s (N.to_nat (sample_index (h_asize h) sample i)).
Proof.
  intros T h rv e s sample i Hi Hs He.
  rewrite index_plain by assumption. set (k := N.to_nat (sample * h_asize h + i)).
  assert (K: N.of_nat k = sample * h_asize h + i) by (unfold k; apply Nnat.N2Nat.id). clearbody k.
  set (ix := fun j => sample_index (h_asize h) (e_sample e) j).
  assert (Ix: forall j, j < h_asize h -> ix j = e_sample e * h_asize h + j)
    by (intros j Hj; apply index_plain; assumption).
  (* a body that is a [put3] on the cell of its index *)
  assert (Loop: forall (body : N -> cobs T -> cobs T) (f : N -> option T * option bool * option N),
    (forall j s, lengths (body j s) = lengths s) ->
    (forall j s c, cell (body j s) c = cell (put3 (ix j) (fst (fst (f j))) (snd (fst (f j))) (snd (f j)) s) c) ->
    lengths (each (h_asize h) body s) = lengths s /\
    cell (each (h_asize h) body s) k
    = if e_sample e =? sample then over3 (f i) (cell s k) else cell s k).
  { intros body f B1 B2.
    assert (O: forall j s', j < h_asize h -> ix j <> N.of_nat k -> cell (body j s') k = cell s' k)
      by (intros j s' _ Hj; rewrite B2; apply put3_cell_other; exact Hj).
    split; [apply each_lengths; exact B1|].
    destruct (N.eqb_spec (e_sample e) sample) as [Es|Es].
    - destruct (each_cell T (h_asize h) ix body s k i) as (_ & s' & _ & C1 & C2).
      + exact B1.
      + exact O.
      + intros j Hj E. rewrite Ix, K, Es in E by exact Hj. lia.
      + exact Hi.
      + rewrite C2, B2. replace (ix i) with (N.of_nat k) by (rewrite Ix, K, Es by exact Hi; reflexivity).
        rewrite put3_cell_same, C1. destruct (f i) as [[a b] c]. reflexivity.
    - apply (each_outside T _ ix).
      + exact O.
      + intros j Hj E. rewrite Ix, K in E by exact Hj.
        apply index_inj in E; [|assumption|assumption]. tauto. }
  assert (Stay: forall f, f = (@None T, @None bool, @None N) ->
     lengths s = lengths s /\ cell s k = if e_sample e =? sample then over3 f (cell s k) else cell s k).
  { intros f ->. split; [reflexivity|]. rewrite cell_none. destruct (_ =? _); reflexivity. }
  assert (Two: forall j (v : T) (b : bool) (s' : cobs T), lengths (put_valid (ix j) b (put_value (ix j) v s')) = lengths s').
  { intros. unfold lengths, put_valid, put_value. cbn [b_values b_valids b_offsets].
    rewrite !store_length. reflexivity. }
  unfold on_sample. unfold effect.
  destruct (N.eqb_spec (e_id e) (h_rid h)) as [Er|Er]; cbn [orb].
  - rewrite Er, N.eqb_refl. cbn [negb]. destruct (h_kind h).
    + apply (Loop _ (fun j => (Some (h_virt h (e_sample e)), Some true, None))).
      * intros j s'. cbv zeta. apply Two.
      * reflexivity.
    + destruct (rv && (h_vlsd h =? 0)).
      * apply (Loop _ (fun j => (Some (snd (h_dec h (e_rec e) j)), Some (fst (h_dec h (e_rec e) j)), Some (snd (h_off h (e_rec e) j))))).
        -- intros j s'. destruct (h_off h (e_rec e) j), (h_dec h (e_rec e) j). cbv zeta.
           exact (proj1 (put_twice T (ix j) _ _ _ _ s' 0)).
        -- intros j s' c. destruct (h_off h (e_rec e) j), (h_dec h (e_rec e) j). cbv zeta. cbn [fst snd].
           exact (proj2 (put_twice T (ix j) _ _ _ _ s' c)).
      * apply (Loop _ (fun j => (None, Some (fst (h_off h (e_rec e) j)), Some (snd (h_off h (e_rec e) j))))).
        -- intros j s'. destruct (h_off h (e_rec e) j). cbv zeta.
           unfold lengths, put_valid, put_off. cbn [b_values b_valids b_offsets].
           rewrite !store_length. reflexivity.
        -- intros j s' c. destruct (h_off h (e_rec e) j). reflexivity.
    + apply (Loop _ (fun j => (Some (snd (h_dec h (e_rec e) j)), Some (fst (h_dec h (e_rec e) j)), None))).
      * intros j s'. cbv zeta. destruct (h_dec h (e_rec e) j). apply Two.
      * intros j s' c. cbv zeta. destruct (h_dec h (e_rec e) j). reflexivity.
  - rewrite (N.eqb_sym (h_rid h)), (proj2 (N.eqb_neq _ _) Er).
    destruct ((0 <? h_vlsd h) && (e_id e =? h_vlsd h)); cbn [negb].
    + destruct (h_kind h); [apply Stay; reflexivity| |apply Stay; reflexivity].
      apply (Loop _ (fun j => (Some (snd (h_dec h (e_rec e) j)), Some (fst (h_dec h (e_rec e) j)), None))).
      * intros j s'. cbv zeta. destruct (h_dec h (e_rec e) j). apply Two.
      * intros j s' c. cbv zeta. destruct (h_dec h (e_rec e) j). reflexivity.
    + destruct (h_kind h); apply Stay; reflexivity.
Qed.

(** An event changes the cells of its own sample as [effect] says, and no other. *)
Lemma on_sample_cell : forall T (h : chan T) rv e (s : cobs T) sample i,
  i < h_asize h -> sample * h_asize h + h_asize h <= 2 ^ 64 -> fits h e ->
  lengths (on_sample h rv e s) = lengths s /\
  cell (on_sample h rv e s) (N.to_nat (sample_index (h_asize h) sample i))
  = if e_sample e =? sample
    then over3 (effect h rv e i) (cell s (N.to_nat (sample_index (h_asize h) sample i)))
    else cell s (N.to_nat (sample_index (h_asize h) sample i)).
Proof.
  intros T h rv e s sample i Hi Hs Hf.
  destruct (N.eqb_spec (e_id e) (h_rid h)) as [E0|E0].
  { apply on_sample_cell0; auto. }
  destruct (h_kind h) eqn:K; [|destruct ((0 <? h_vlsd h) && (e_id e =? h_vlsd h)) eqn:V|].
  2: { apply andb_prop in V. destruct V as (V1 & V2). apply N.ltb_lt in V1. apply N.eqb_eq in V2.
       apply on_sample_cell0; [exact Hi|exact Hs|]. apply Hf. right. split; [exact K|]. split; [lia|exact V2]. }
  all: unfold on_sample, effect; rewrite (proj2 (N.eqb_neq _ _) E0), (N.eqb_sym (h_rid h)),
         (proj2 (N.eqb_neq _ _) E0), K, ?V, ?Bool.andb_false_r; cbn [orb negb];
       (split; [destruct ((0 <? h_vlsd h) && (e_id e =? h_vlsd h)); reflexivity|]); rewrite cell_none;
       destruct ((0 <? h_vlsd h) && (e_id e =? h_vlsd h)); destruct (_ =? _); reflexivity.
Qed.

(* ------------------------------------------------------------------ *)
(** ** Any sequence of events *)

Lemma latest_last : forall f l e, latest f (l ++ [e]) = if f e then Some e else latest f l.
Proof.
  intros f. induction l as [|x l IH]; intros e; cbn [app latest].
  { destruct (f e); reflexivity. }
  rewrite IH. destruct (f e); [reflexivity|]. reflexivity.
Qed.

Lemma latest_in : forall f l e, latest f l = Some e -> f e = true /\ In e l.
Proof.
  intros f. induction l as [|x l IH]; intros e H; cbn [latest] in H; [discriminate|].
  destruct (latest f l) eqn:E.
  - injection H as <-. destruct (IH _ eq_refl) as (A & B). split; [exact A|right; exact B].
  - destruct (f x) eqn:F; [|discriminate]. injection H as <-. split; [exact F|left; reflexivity].
Qed.

Section Run.
Variables (T : Type) (t0 : T) (h : chan T) (rv : bool) (nof sample i : N).
Hypothesis Hi : i < h_asize h.
Hypothesis Hn : nof * h_asize h < 2 ^ 64.
Hypothesis Hs : sample < nof.

Let ix := N.to_nat (sample_index (h_asize h) sample i).
Let fin evs := run_obs h rv evs (cobs_new t0 h nof).

Lemma sample_fit : sample * h_asize h + h_asize h <= nof * h_asize h.
Proof using Hs.
  clear - Hs. replace (sample * h_asize h + h_asize h) with ((sample + 1) * h_asize h) by lia.
  apply N.mul_le_mono_r. lia.
Qed.

Lemma ix_val : ix = N.to_nat (sample * h_asize h + i).
Proof using Hi Hn Hs. pose proof sample_fit. unfold ix. rewrite index_plain; [reflexivity|lia|exact Hi]. Qed.

Lemma ix_small : (ix < N.to_nat (nof * h_asize h))%nat.
Proof using Hi Hn Hs. pose proof sample_fit. rewrite ix_val. lia. Qed.

Lemma run_app : forall evs e, fin (evs ++ [e]) = on_sample h rv e (fin evs).
Proof. intros. unfold fin, run_obs. rewrite fold_left_app. reflexivity. Qed.

Lemma nth_repeat_in : forall A (a : A) n k, (k < n)%nat -> nth_error (repeat a n) k = Some a.
Proof. intros A a. induction n as [|n IH]; intros k H; [lia|]. destruct k; [reflexivity|]. apply IH. lia. Qed.

Lemma new_cell : cell (cobs_new t0 h nof) ix
  = (Some t0, Some false, match h_kind h with KVariable => Some 0 | _ => None end).
Proof using Hi Hn Hs.
  pose proof ix_small. unfold cell, cobs_new. unfold w64. rewrite N.mod_small by exact Hn.
  cbn [b_values b_valids b_offsets]. rewrite !nth_repeat_in by assumption.
  destruct (h_kind h); [|rewrite nth_repeat_in by assumption|]; try reflexivity;
    destruct ix; reflexivity.
Qed.

(** The cell after any events: only those of this sample count. *)
Lemma run_cell : forall evs, Forall (fits h) evs ->
  exists t b o, cell (fin evs) ix = (Some t, Some b, o) /\ (o = None <-> h_kind h <> KVariable).
Proof using Hi Hn Hs.
  induction evs as [|e evs IH] using rev_ind; intros H.
  { exists t0, false, (match h_kind h with KVariable => Some 0 | _ => None end).
    split; [apply new_cell|]. destruct (h_kind h); split; congruence. }
  apply Forall_app in H. destruct H as (H1 & H2). apply Forall_inv in H2.
  destruct (IH H1) as (t & b & o & C & O). rewrite run_app.
  pose proof sample_fit as SF.
  destruct (on_sample_cell T h rv e (fin evs) sample i Hi ltac:(lia) H2) as (_ & E).
  fold ix in E. rewrite E, C.
  destruct (e_sample e =? sample); [|eauto].
  destruct (effect h rv e i) as [[v b'] o']. unfold over3. cbn [fst snd over].
  destruct v, b', o, o'; do 3 eexists; (split; [reflexivity|]); exact O || (split; [discriminate|]; intros X; apply O in X; discriminate).
Qed.

Lemma run_step : forall evs e, Forall (fits h) (evs ++ [e]) ->
  cell (fin (evs ++ [e])) ix
  = if e_sample e =? sample then over3 (effect h rv e i) (cell (fin evs) ix) else cell (fin evs) ix.
Proof using Hi Hn Hs.
  intros evs e H. apply Forall_app in H. destruct H as (_ & H2). apply Forall_inv in H2.
  rewrite run_app. pose proof sample_fit as SF.
  destruct (on_sample_cell T h rv e (fin evs) sample i Hi ltac:(lia) H2) as (_ & E). exact E.
Qed.

Lemma get_cell : forall s t b o, cell s ix = (Some t, Some b, o) -> get_sample t0 h s sample i = (b, t).
Proof.
  intros s t b o H. unfold cell in H. injection H as H1 H2 H3. unfold get_sample. fold ix.
  rewrite (nth_error_nth _ _ _ H1), (nth_error_nth _ _ _ H2).
  assert (L1: (ix < length (b_values s))%nat) by (apply nth_error_Some; congruence).
  assert (L2: (ix < length (b_valids s))%nat) by (apply nth_error_Some; congruence).
  unfold ix in *. rewrite !(proj2 (N.ltb_lt _ _)) by lia. reflexivity.
Qed.

Lemma shown_ok : forall evs, Forall (fits h) evs -> (h_kind h <> KVariable \/ h_vlsd h = 0) ->
  get_sample t0 h (fin evs) sample i = shown t0 h rv evs sample i.
Proof using Hi Hn Hs.
  intros evs H Hk.
  assert (X: exists o, cell (fin evs) ix = (Some (snd (shown t0 h rv evs sample i)), Some (fst (shown t0 h rv evs sample i)), o)).
  { induction evs as [|e evs IH] using rev_ind.
    { eexists. apply new_cell. }
    pose proof (proj1 (Forall_app _ _ _) H) as (H1 & _).
    destruct (IH H1) as (o & C). rewrite (run_step _ _ H), C. unfold shown in *. rewrite latest_last.
    change (is_event (h_rid h) sample e) with ((e_id e =? h_rid h) && (e_sample e =? sample)). rewrite (N.eqb_sym (e_id e)).
    destruct (N.eqb_spec (e_sample e) sample) as [Es|Es]; rewrite ?Bool.andb_false_r, ?Bool.andb_true_r; [|eauto].
    unfold effect. destruct (N.eqb_spec (h_rid h) (e_id e)) as [Er|Er].
    - unfold of_record. rewrite Es. destruct (h_kind h) eqn:K.
      + unfold over3. cbn [fst snd over]. eexists. reflexivity.
      + destruct Hk as [Hk|Hk]; [congruence|]. rewrite Hk. cbn [N.eqb]. rewrite Bool.andb_true_r.
        destruct rv; unfold over3; cbn [fst snd over]; [eexists; reflexivity|].
        eexists. f_equal. f_equal.
        destruct (latest (is_event (h_rid h) sample) evs); reflexivity.
      + unfold over3. cbn [fst snd over]. eexists. reflexivity.
    - destruct (h_kind h) eqn:K; try (unfold over3; cbn [fst snd over]; eexists; reflexivity).
      destruct Hk as [Hk|Hk]; [congruence|]. rewrite Hk. cbn [N.ltb N.compare andb].
      unfold over3; cbn [fst snd over]. eexists. reflexivity. }
  destruct X as (o & X). rewrite (get_cell _ _ _ _ X). destruct (shown t0 h rv evs sample i). reflexivity.
Qed.

Lemma shown_offset_ok : forall evs, Forall (fits h) evs -> h_kind h = KVariable ->
  get_offset h (fin evs) sample i = Some (shown_offset h evs sample i).
Proof using Hi Hn Hs.
  intros evs H Hk. unfold get_offset. fold ix.
  change (nth_error (b_offsets (fin evs)) ix) with (snd (cell (fin evs) ix)).
  induction evs as [|e evs IH] using rev_ind.
  { unfold fin, run_obs. cbn [fold_left]. rewrite new_cell, Hk. reflexivity. }
  pose proof (proj1 (Forall_app _ _ _) H) as (H1 & _). specialize (IH H1).
  rewrite (run_step _ _ H). unfold shown_offset in *. rewrite latest_last.
  change (is_event (h_rid h) sample e) with ((e_id e =? h_rid h) && (e_sample e =? sample)). rewrite (N.eqb_sym (e_id e)).
  destruct (N.eqb_spec (e_sample e) sample) as [Es|Es]; rewrite ?Bool.andb_false_r, ?Bool.andb_true_r; [|exact IH].
  unfold effect. rewrite Hk. destruct (N.eqb_spec (h_rid h) (e_id e)) as [Er|Er].
  - unfold over3. cbn [snd]. rewrite IH. destruct (rv && (h_vlsd h =? 0)); reflexivity.
  - destruct ((0 <? h_vlsd h) && (e_id e =? h_vlsd h)); unfold over3; cbn [snd over]; rewrite IH; reflexivity.
Qed.

Lemma shown_vlsd_ok : forall evs, Forall (fits h) evs -> h_kind h = KVariable ->
  h_vlsd h <> 0 -> h_vlsd h <> h_rid h ->
  get_sample t0 h (fin evs) sample i = shown_vlsd t0 h evs sample i.
Proof using Hi Hn Hs.
  intros evs H Hk V1 V2.
  assert (X: exists o, cell (fin evs) ix = (Some (snd (shown_vlsd t0 h evs sample i)), Some (fst (shown_vlsd t0 h evs sample i)), o)).
  { induction evs as [|e evs IH] using rev_ind.
    { eexists. apply new_cell. }
    pose proof (proj1 (Forall_app _ _ _) H) as (H1 & _).
    destruct (IH H1) as (o & C). rewrite (run_step _ _ H), C. unfold shown_vlsd in *. cbn [fst snd] in *.
    rewrite !latest_last. change (is_event (h_rid h) sample e) with ((e_id e =? h_rid h) && (e_sample e =? sample)).
    change (is_event (h_vlsd h) sample e) with ((e_id e =? h_vlsd h) && (e_sample e =? sample)).
    destruct (N.eqb_spec (e_sample e) sample) as [Es|Es]; rewrite ?Bool.andb_false_r, ?Bool.andb_true_r; [|eauto].
    unfold effect. rewrite Hk, (N.eqb_sym (h_rid h)), (proj2 (N.eqb_neq _ _) V1), Bool.andb_false_r.
    rewrite (proj2 (N.ltb_lt 0 _)) by lia. cbn [andb].
    destruct (N.eqb_spec (e_id e) (h_rid h)) as [Er|Er]; cbn [orb].
    - rewrite Er. destruct (N.eqb_spec (h_rid h) (h_vlsd h)); [congruence|].
      unfold over3; cbn [fst snd over]. rewrite N.eqb_refl. eexists. reflexivity.
    - destruct (e_id e =? h_vlsd h); unfold over3; rewrite ?(proj2 (N.eqb_neq _ _) Er); cbn [fst snd over]; eexists; reflexivity. }
  destruct X as (o & X). rewrite (get_cell _ _ _ _ X). destruct (shown_vlsd t0 h evs sample i). reflexivity.
Qed.
End Run.

(* ------------------------------------------------------------------ *)
(** ** A file and its observers *)

Definition yes (_ : ptr) (_ : event) : bool := true.

Lemma ask_yes : forall l e w, ask (noted yes) l e w = (true, w ++ map (fun q => (q, e)) l).
Proof.
  induction l as [|q l IH]; intros e w; cbn [ask map].
  { rewrite app_nil_r. reflexivity. }
  change (fst (noted yes q e w)) with true. change (snd (noted yes q e w)) with (w ++ [(q, e)]).
  rewrite IH, <- app_assoc. reflexivity.
Qed.

Lemma in_wants : forall needs l p id, p <> 0 -> In p l -> needs p id = true -> In p (wants needs l id).
Proof.
  intros needs l p id H0 Hp Hn. apply filter_In. split; [exact Hp|].
  rewrite Hn, (proj2 (N.eqb_neq _ _) H0). reflexivity.
Qed.

Lemma notify_yes : forall needs groups g0 p rid e w,
  p <> 0 -> In p (do_list g0) -> needs p rid = true -> In rid groups ->
  exists l, notify_obs (noted yes) (init_fast needs groups g0) e w = (true, w ++ map (fun q => (q, e)) l) /\
    (e_id e = rid -> In p l).
Proof.
  intros needs groups g0 p rid e w H0 Hp Hn Hg.
  assert (Wp: In p (wants needs (do_list g0) rid)) by (apply in_wants; assumption).
  assert (Wn: wants needs (do_list g0) rid <> []) by (intros X; rewrite X in Wp; destruct Wp).
  destruct (fast_entries needs (do_list g0) groups []) as (A & B); [intros x []|].
  unfold notify_obs, init_fast. cbn [do_fast do_list].
  set (f := fold_left (fast_step needs (do_list g0)) groups []) in *. clearbody f.
  destruct (proj2 (B rid)) as (x & X1 & X2); [right; auto|].
  destruct f as [|y [|z f]].
  - destruct X1.
  - rewrite call_all_ask, ask_yes. eexists. split; [reflexivity|]. intros _.
    apply filter_In. rewrite (proj2 (N.eqb_neq _ _) H0). auto.
  - rewrite (find_fast needs (do_list g0) _ (e_id e) A).
    destruct (existsb (fun x => fst x =? e_id e) (y :: z :: f)) eqn:E.
    + cbn [snd]. rewrite call_all_ask, ask_yes. eexists. split; [reflexivity|]. intros ->.
      apply filter_In. rewrite (proj2 (N.eqb_neq _ _) H0). auto.
    + exists []. rewrite app_nil_r. split; [reflexivity|]. intros Er. exfalso.
      assert (Y: existsb (fun x => fst x =? e_id e) (y :: z :: f) = true).
      { apply existsb_exists. exists x. split; [exact X1|]. rewrite X2, Er. apply N.eqb_refl. }
      congruence.
Qed.

Lemma calls_app : forall p a b, calls_of p (a ++ b) = calls_of p a ++ calls_of p b.
Proof. intros. unfold calls_of. rewrite filter_app, map_app. reflexivity. Qed.

Lemma calls_same : forall p l e, calls_of p (map (fun q => (q, e)) l) = repeat e (count p l).
Proof.
  intros p l e. induction l as [|q l IH]; [reflexivity|]. unfold calls_of, count in *.
  cbn [map filter fst]. destruct (q =? p); cbn [map snd length repeat]; rewrite IH; reflexivity.
Qed.

Lemma latest_repeat : forall f l e n, latest f (l ++ repeat e n)
  = match n with O => latest f l | _ => if f e then Some e else latest f l end.
Proof.
  intros f l e n. induction n as [|n IH].
  { cbn [repeat]. rewrite app_nil_r. reflexivity. }
  replace (repeat e (S n)) with (repeat e n ++ [e]) by (rewrite <- repeat_cons; reflexivity).
  rewrite app_assoc, latest_last, IH. destruct (f e); [reflexivity|]. destruct n; reflexivity.
Qed.

Lemma all_calls_latest : forall needs groups g0 p rid f evs,
  p <> 0 -> In p (do_list g0) -> needs p rid = true -> In rid groups ->
  (forall e, f e = true -> e_id e = rid) ->
  latest f (calls_of p (all_calls yes (init_fast needs groups g0) evs)) = latest f evs.
Proof.
  intros needs groups g0 p rid f evs H0 Hp Hn Hg Hf.
  induction evs as [|e evs IH] using rev_ind; [reflexivity|].
  unfold all_calls in *. rewrite fold_left_app. cbn [fold_left].
  set (w := fold_left _ evs []) in *. clearbody w.
  destruct (notify_yes needs groups g0 p rid e w H0 Hp Hn Hg) as (l & E & I).
  rewrite E. cbn [snd]. rewrite calls_app, calls_same, latest_repeat, latest_last, IH.
  destruct (f e) eqn:Fe; [|destruct (count p l); reflexivity].
  specialize (I (Hf e Fe)). destruct (count p l) eqn:C; [|reflexivity]. exfalso.
  unfold count in C. apply length_zero_iff_nil in C.
  assert (X: In p (filter (fun q => q =? p) l)) by (apply filter_In; split; [exact I|apply N.eqb_refl]).
  rewrite C in X. destruct X.
Qed.

Lemma all_calls_in : forall needs groups g0 p rid evs e,
  p <> 0 -> In p (do_list g0) -> needs p rid = true -> In rid groups ->
  In e (calls_of p (all_calls yes (init_fast needs groups g0) evs)) -> In e evs.
Proof.
  intros needs groups g0 p rid evs e0 H0 Hp Hn Hg.
  induction evs as [|e evs IH] using rev_ind; [intros []|].
  unfold all_calls in *. rewrite fold_left_app. cbn [fold_left].
  set (w := fold_left _ evs []) in *. clearbody w.
  destruct (notify_yes needs groups g0 p rid e w H0 Hp Hn Hg) as (l & E & _).
  rewrite E. cbn [snd]. rewrite calls_app, calls_same. intros X. apply in_app_or in X.
  apply in_or_app. destruct X as [X|X]; [left; apply IH; exact X|right; left].
  symmetry. apply (repeat_spec _ _ _ X).
Qed.

Lemma occ_snoc : forall id prev r, occ id (prev ++ [r]) = occ id prev + if r_id r =? id then 1 else 0.
Proof.
  intros. unfold occ. rewrite filter_app, app_length. cbn [filter]. destruct (r_id r =? id); cbn [length]; lia.
Qed.

Lemma expected_latest : forall d sub rid s recs prev, sub rid = true -> s < nof_of d rid ->
  latest (is_event rid s) (expected d sub prev recs)
  = if occ rid prev <=? s
    then option_map (Ev s rid) (nth_error (payloads rid recs) (N.to_nat (s - occ rid prev)))
    else None.
Proof.
  intros d sub rid s recs. induction recs as [|r recs IH]; intros prev Hs Hn.
  { cbn. destruct (occ rid prev <=? s); [|reflexivity]. destruct (N.to_nat _); reflexivity. }
  cbn [expected]. unfold payloads. cbn [filter].
  assert (L: forall a b, latest (is_event rid s) (a ++ b) = match latest (is_event rid s) b with
             | Some x => Some x | None => latest (is_event rid s) a end).
  { induction a as [|x a IHa]; intros b; cbn [app latest]; [destruct (latest _ b); reflexivity|].
    rewrite IHa. destruct (latest (is_event rid s) b); [reflexivity|]. reflexivity. }
  rewrite L, IH by assumption. rewrite occ_snoc.
  destruct (N.eqb_spec (r_id r) rid) as [Er|Er].
  - rewrite Er, Hs. cbn [andb map]. fold (payloads rid recs).
    destruct (N.leb_spec (occ rid prev) s) as [H|H].
    + destruct (N.eqb_spec (occ rid prev) s) as [Es|Es].
      * rewrite (proj2 (N.leb_gt _ _)) by lia. rewrite (proj2 (N.ltb_lt _ _)) by lia.
        cbn [latest]. unfold is_event. cbn [e_id e_sample]. rewrite Es, !N.eqb_refl, N.sub_diag. reflexivity.
      * rewrite (proj2 (N.leb_le _ _)) by lia.
        replace (N.to_nat (s - occ rid prev)) with (S (N.to_nat (s - (occ rid prev + 1)))) by lia.
        cbn [nth_error].
        destruct (nth_error (payloads rid recs) (N.to_nat (s - (occ rid prev + 1)))); [reflexivity|].
        cbn [option_map].
        destruct (occ rid prev <? nof_of d rid); [|reflexivity]. cbn [latest]. unfold is_event.
        cbn [e_id e_sample]. rewrite (proj2 (N.eqb_neq _ _) Es), Bool.andb_false_r. reflexivity.
    + rewrite (proj2 (N.leb_gt _ _)) by lia.
      destruct (occ rid prev <? nof_of d rid); [|reflexivity]. cbn [latest]. unfold is_event.
      cbn [e_id e_sample]. rewrite (proj2 (N.eqb_neq (occ rid prev) s)) by lia.
      rewrite Bool.andb_false_r. reflexivity.
  - rewrite N.add_0_r. fold (payloads rid recs).
    destruct (sub (r_id r) && (occ (r_id r) prev <? nof_of d (r_id r))); cbn [latest].
    + unfold is_event. cbn [e_id e_sample]. rewrite (proj2 (N.eqb_neq _ _) Er). cbn [andb].
      destruct (if occ rid prev <=? s then _ else _); reflexivity.
    + destruct (if occ rid prev <=? s then _ else _); reflexivity.
Qed.

Lemma expected_in : forall d sub recs prev e, In e (expected d sub prev recs) -> e_sample e < nof_of d (e_id e).
Proof.
  intros d sub. induction recs as [|r recs IH]; intros prev e H; [destruct H|].
  cbn [expected] in H. apply in_app_or in H. destruct H as [H|H]; [|apply (IH _ _ H)].
  destruct (sub (r_id r)); cbn [andb] in H; [|destruct H].
  destruct (N.ltb_spec (occ (r_id r) prev) (nof_of d (r_id r))); [|destruct H].
  destruct H as [<-|[]]. exact H0.
Qed.

Lemma upto_all : forall v l, (forall e, v e = true) -> upto v l = l.
Proof. intros v l H. induction l as [|e l IH]; [reflexivity|]. cbn [upto]. rewrite H, IH. reflexivity. Qed.

Lemma file_samples : forall T (t0 : T) (h : chan T) rv d recs blocks fuel ids g0 p,
  let needs := needs_of ids in
  let g := init_fast needs (map g_id (d_groups d)) g0 in
  let nof := nof_of d (h_rid h) in
  dg_ok d -> Forall (rec_ok d) recs -> Forall (fun b => b <> []) blocks ->
  concat blocks = stream d recs -> (length (stream d recs) < fuel)%nat ->
  p <> 0 -> In p (do_list g0) -> In (h_rid h) (ids p) -> In (h_rid h) (map g_id (d_groups d)) ->
  (h_kind h <> KVariable \/ h_vlsd h = 0) ->
  nof * h_asize h < 2 ^ 64 ->
  exists evs,
    read_data d (subscribing needs g0) (fun e => fst (notify_obs (noted yes) g e [])) fuel blocks
      = Some (Ok evs) /\
    forall s i, s < nof -> i < h_asize h ->
      get_sample t0 h (run_obs h rv (calls_of p (all_calls yes g evs)) (cobs_new t0 h nof)) s i
      = match nth_error (payloads (h_rid h) recs) (N.to_nat s) with
        | Some data => of_record t0 h rv s data i
        | None => (false, t0)
        end.
Proof.
  intros T t0 h rv d recs blocks fuel ids g0 p needs g nof Hd Hr Hb Hc Hf H0 Hp Hid Hg Hk Hn.
  assert (Nd: needs p (h_rid h) = true).
  { unfold needs, needs_of. apply existsb_exists. exists (h_rid h). split; [exact Hid|apply N.eqb_refl]. }
  eexists. split.
  { rewrite (C12_read_stream d (subscribing needs g0) _ recs blocks fuel Hd Hr Hb Hc Hf).
    rewrite upto_all; [reflexivity|]. intros e. unfold g.
    destruct (notify_yes needs (map g_id (d_groups d)) g0 p (h_rid h) e [] H0 Hp Nd Hg) as (l & E & _).
    rewrite E. reflexivity. }
  intros s i Hs Hi.
  assert (Sub: subscribing needs g0 (h_rid h) = true).
  { unfold subscribing. apply existsb_exists. exists p. rewrite Nd, (proj2 (N.eqb_neq _ _) H0). auto. }
  rewrite shown_ok; [|exact Hi|exact Hn|exact Hs| |exact Hk].
  - unfold shown, g. rewrite (all_calls_latest needs _ g0 p (h_rid h)); auto.
    + rewrite (expected_latest d _ (h_rid h) s recs [] Sub Hs).
      change (occ (h_rid h) []) with 0. rewrite (proj2 (N.leb_le 0 s)) by lia. rewrite N.sub_0_r.
      destruct (nth_error _ _); reflexivity.
    + intros e He. unfold is_event in He. apply andb_prop in He. apply N.eqb_eq. tauto.
  - apply Forall_forall. intros e He. unfold fits. intros Hid2.
    apply (all_calls_in needs _ g0 p (h_rid h)) in He; auto. apply expected_in in He.
    assert (e_sample e < nof).
    { destruct Hid2 as [E|(E1 & E2 & _)]; [rewrite E in He; exact He|]. destruct Hk; congruence. }
    assert ((e_sample e + 1) * h_asize h <= nof * h_asize h) by (apply N.mul_le_mono_r; lia). lia.
Qed.

Lemma ask_noted : forall answer l e w,
  ask (noted answer) l e w
  = (forallb (fun q => answer q e) l, w ++ map (fun q => (q, e)) (asked (fun q => answer q e) l)).
Proof.
  intros answer. induction l as [|q l IH]; intros e w; cbn [ask forallb asked map].
  { rewrite app_nil_r. reflexivity. }
  change (fst (noted answer q e w)) with (answer q e). change (snd (noted answer q e w)) with (w ++ [(q, e)]).
  destruct (answer q e); cbn [andb map]; [|reflexivity]. rewrite IH, <- app_assoc. reflexivity.
Qed.

(** Every attached observer subscribes to some group of the data group: then a record of a group that
    has subscribers goes to exactly those. *)
Lemma some_group : forall needs groups g id,
  (forall q, In q (do_list g) -> q <> 0 -> exists a, In a groups /\ needs q a = true) ->
  In id groups -> wants needs (do_list g) id <> [] ->
  two_groups needs (do_list g) groups \/
  (exists p, In p (do_list g) /\ p <> 0) /\
  (forall p, In p (do_list g) -> p <> 0 -> needs p id = true).
Proof.
  intros needs groups g id H Hid Hw.
  destruct (forallb (fun q => (q =? 0) || needs q id) (do_list g)) eqn:F.
  - right. rewrite forallb_forall in F. split.
    + destruct (wants needs (do_list g) id) as [|p r] eqn:E; [congruence|].
      assert (X: In p (p :: r)) by (left; reflexivity). rewrite <- E in X. apply filter_In in X.
      destruct X as (X1 & X2). apply andb_prop in X2. exists p. split; [exact X1|].
      destruct (N.eqb_spec p 0); [destruct X2; discriminate|assumption].
    + intros p Hp H0. specialize (F p Hp). rewrite (proj2 (N.eqb_neq _ _) H0) in F. exact F.
  - left. assert (X: exists q, In q (do_list g) /\ q <> 0 /\ needs q id = false).
    { clear - F. induction (do_list g) as [|q l IH]; [discriminate|]. cbn [forallb] in F.
      destruct (N.eqb_spec q 0) as [->|Hq]; cbn [orb andb] in F.
      - destruct (IH F) as (x & X1 & X2). exists x. split; [right; exact X1|exact X2].
      - destruct (needs q id) eqn:E; cbn [andb] in F.
        + destruct (IH F) as (x & X1 & X2). exists x. split; [right; exact X1|exact X2].
        + exists q. split; [left; reflexivity|auto]. }
    destruct X as (q & Q1 & Q2 & Q3). destruct (H q Q1 Q2) as (a & A1 & A2).
    exists id, a. repeat split; auto.
    + intros ->. congruence.
    + intros E. assert (X: In q (wants needs (do_list g) a)) by (apply in_wants; assumption).
      rewrite E in X. destruct X.
Qed.

Lemma expected_ids : forall d sub recs prev e, Forall (rec_ok d) recs -> In e (expected d sub prev recs) ->
  sub (e_id e) = true /\ In (e_id e) (map g_id (d_groups d)).
Proof.
  intros d sub. induction recs as [|r recs IH]; intros prev e Hr H; [destruct H|].
  apply Forall_cons_iff in Hr. destruct Hr as (Hr & Hrs).
  cbn [expected] in H. apply in_app_or in H. destruct H as [H|H]; [|apply (IH _ _ Hrs H)].
  destruct (sub (r_id r)) eqn:S0; cbn [andb] in H; [|destruct H].
  destruct (_ <? _); [|destruct H]. destruct H as [<-|[]]. cbn [e_id]. split; [exact S0|].
  destruct Hr as (g & G1 & G2 & _). apply in_map_iff. exists g. auto.
Qed.

Lemma upto_in : forall v l e, In e (upto v l) -> In e l.
Proof.
  intros v. induction l as [|x l IH]; intros e H; [destruct H|]. cbn [upto] in H.
  destruct H as [<-|H]; [left; reflexivity|]. destruct (v x); [right; apply IH; exact H|destruct H].
Qed.

Lemma upto_ext : forall v v' l, (forall e, In e l -> v e = v' e) -> upto v l = upto v' l.
Proof.
  intros v v'. induction l as [|x l IH]; intros H; [reflexivity|]. cbn [upto].
  rewrite (H x) by (left; reflexivity). rewrite IH; [reflexivity|]. intros e He. apply H. right. exact He.
Qed.

Lemma file_delivery : forall d recs blocks fuel ids g0 answer,
  let needs := needs_of ids in
  let groups := map g_id (d_groups d) in
  let g := init_fast needs groups g0 in
  let subs := subscribers needs (do_list g0) in
  dg_ok d -> Forall (rec_ok d) recs -> Forall (fun b => b <> []) blocks ->
  concat blocks = stream d recs -> (length (stream d recs) < fuel)%nat ->
  (forall q, In q (do_list g0) -> q <> 0 -> exists a, In a groups /\ needs q a = true) ->
  let evs := upto (fun e => forallb (fun q => answer q e) (subs (e_id e)))
               (expected d (fun id => existsb (fun q => negb (q =? 0) && needs q id) (do_list g0)) [] recs) in
  read_data d (subscribing needs g0) (fun e => fst (notify_obs (noted answer) g e [])) fuel blocks = Some (Ok evs) /\
  all_calls answer g evs
  = flat_map (fun e => map (fun q => (q, e)) (asked (fun q => answer q e) (subs (e_id e)))) evs.
Proof.
  intros d recs blocks fuel ids g0 answer needs groups g subs Hd Hr Hb Hc Hf Ha evs.
  change (fun id => existsb (fun q => negb (q =? 0) && needs q id) (do_list g0)) with (subscribing needs g0) in evs.
  assert (Nt: forall e w, In e (expected d (subscribing needs g0) [] recs) ->
     notify_obs (noted answer) g e w =
     (forallb (fun q => answer q e) (subs (e_id e)),
      w ++ map (fun q => (q, e)) (asked (fun q => answer q e) (subs (e_id e))))).
  { intros e w He. destruct (expected_ids _ _ _ _ _ Hr He) as (S1 & S2). unfold g.
    rewrite notify_wants; [apply ask_noted|exact S2|].
    apply some_group; [exact Ha|exact S2|].
    intros E. unfold subscribing in S1. apply existsb_exists in S1. destruct S1 as (q & Q1 & Q2).
    assert (X: In q (wants needs (do_list g0) (e_id e))) by (apply filter_In; auto).
    rewrite E in X. destruct X. }
  split.
  - rewrite (C12_read_stream d _ _ recs blocks fuel Hd Hr Hb Hc Hf). f_equal. f_equal.
    unfold evs. apply upto_ext. intros e He. rewrite (Nt e [] He). reflexivity.
  - assert (I: forall e, In e evs -> In e (expected d (subscribing needs g0) [] recs))
      by (intros e He; apply (upto_in _ _ _ He)).
    clearbody evs. unfold all_calls.
    induction evs as [|e evs IH] using rev_ind; [reflexivity|].
    rewrite fold_left_app, flat_map_app. cbn [fold_left flat_map]. rewrite app_nil_r, IH.
    + rewrite (Nt e) by (apply I, in_or_app; right; left; reflexivity). reflexivity.
    + intros x Hx. apply I, in_or_app. left. exact Hx.
Qed.

(** A variable length channel whose values are in a group of their own. *)
Lemma offsets_snd : forall l off k p, nth_error (offsets_from off l) k = Some p -> nth_error l k = Some (snd p).
Proof.
  induction l as [|x l IH]; intros off k p H; [destruct k; discriminate|].
  destruct k as [|k]; cbn [offsets_from nth_error] in *; [injection H as <-; reflexivity|].
  apply (IH _ _ _ H).
Qed.

Lemma file_vlsd : forall T (t0 : T) (h : chan T) rv d recs blocks fuel ids g0 p,
  let needs := needs_of ids in
  let g := init_fast needs (map g_id (d_groups d)) g0 in
  let nof := nof_of d (h_rid h) in
  dg_ok d -> Forall (rec_ok d) recs -> Forall (fun b => b <> []) blocks ->
  concat blocks = stream d recs -> (length (stream d recs) < fuel)%nat ->
  p <> 0 -> In p (do_list g0) -> In (h_rid h) (ids p) -> In (h_vlsd h) (ids p) ->
  In (h_rid h) (map g_id (d_groups d)) -> In (h_vlsd h) (map g_id (d_groups d)) ->
  h_kind h = KVariable -> h_vlsd h <> 0 -> h_vlsd h <> h_rid h ->
  nof_of d (h_vlsd h) = nof -> nof * h_asize h < 2 ^ 64 ->
  exists evs,
    read_data d (subscribing needs g0) (fun e => fst (notify_obs (noted yes) g e [])) fuel blocks
      = Some (Ok evs) /\
    forall s i data pay, s < nof -> i < h_asize h ->
      nth_error (payloads (h_rid h) recs) (N.to_nat s) = Some data ->
      nth_error (offsets_from 0 (payloads (h_vlsd h) recs)) (N.to_nat s) = Some (snd (h_off h data i), pay) ->
      let st := run_obs h rv (calls_of p (all_calls yes g evs)) (cobs_new t0 h nof) in
      snd (get_sample t0 h st s i) = snd (h_dec h pay i) /\
      get_offset h st s i = Some (snd (h_off h data i)).
Proof.
  intros T t0 h rv d recs blocks fuel ids g0 p needs g nof Hd Hr Hb Hc Hf H0 Hp Hid Hid2 Hg Hg2 Hk V1 V2 Hnn Hn.
  assert (Nd: forall id, In id (ids p) -> needs p id = true).
  { intros id X. unfold needs, needs_of. apply existsb_exists. exists id. split; [exact X|apply N.eqb_refl]. }
  assert (Sub: forall id, In id (ids p) -> subscribing needs g0 id = true).
  { intros id X. unfold subscribing. apply existsb_exists. exists p. rewrite (Nd _ X), (proj2 (N.eqb_neq _ _) H0). auto. }
  eexists. split.
  { rewrite (C12_read_stream d (subscribing needs g0) _ recs blocks fuel Hd Hr Hb Hc Hf).
    rewrite upto_all; [reflexivity|]. intros e. unfold g.
    destruct (notify_yes needs (map g_id (d_groups d)) g0 p (h_rid h) e [] H0 Hp (Nd _ Hid) Hg) as (l & E & _).
    rewrite E. reflexivity. }
  intros s i data pay Hs Hi D O. cbv zeta.
  set (evs := expected d (subscribing needs g0) [] recs).
  assert (Fit: Forall (fits h) (calls_of p (all_calls yes g evs))).
  { apply Forall_forall. intros e He. unfold fits. intros Hor.
    apply (all_calls_in needs _ g0 p (h_rid h)) in He; auto. apply expected_in in He.
    assert (e_sample e < nof).
    { destruct Hor as [E|(_ & _ & E)]; rewrite E in He; [exact He|]. rewrite Hnn in He. exact He. }
    assert ((e_sample e + 1) * h_asize h <= nof * h_asize h) by (apply N.mul_le_mono_r; lia). lia. }
  assert (Lt: forall id, In id (ids p) -> In id (map g_id (d_groups d)) -> nof_of d id = nof ->
     latest (is_event id s) (calls_of p (all_calls yes g evs))
     = option_map (Ev s id) (nth_error (payloads id recs) (N.to_nat s))).
  { intros id X1 X2 X3. unfold g. rewrite (all_calls_latest needs _ g0 p id); auto.
    - unfold evs. rewrite (expected_latest d _ id s recs [] (Sub _ X1)) by (rewrite X3; exact Hs).
      change (occ id []) with 0. rewrite (proj2 (N.leb_le 0 s)) by lia. rewrite N.sub_0_r. reflexivity.
    - intros e He. unfold is_event in He. apply andb_prop in He. apply N.eqb_eq. tauto. }
  split.
  - rewrite (shown_vlsd_ok T t0 h rv nof s i Hi Hn Hs _ Fit Hk V1 V2). unfold shown_vlsd. cbn [snd].
    rewrite (Lt _ Hid2 Hg2 Hnn). rewrite (offsets_snd _ _ _ _ O). reflexivity.
  - rewrite (shown_offset_ok T t0 h rv nof s i Hi Hn Hs _ Fit Hk). unfold shown_offset.
    rewrite (Lt _ Hid Hg eq_refl), D. reflexivity.
Qed.
