(** C93: finding and creating channel groups and channels by name. *)
From Coq Require Import Lia String.
From Verif Require Import Base XmlModel XmlProofs BusLogModel LookModel LookSpec.
Local Open Scope N_scope.
Local Open Scope list_scope.

Lemma starts_iff : forall p s, starts p s = true <-> exists b, s = p ++ b.
Proof.
  induction p as [|a p IH]; intros s; cbn [starts].
  - split; [intros _; exists s; reflexivity|reflexivity].
  - destruct s as [|x s]; [split; [discriminate|intros [b E]; discriminate]|].
    rewrite Bool.andb_true_iff, IH, N.eqb_eq. split.
    + intros [-> [b ->]]. exists b. reflexivity.
    + intros [b E]. injection E as -> ->. split; [reflexivity|exists b; reflexivity].
Qed.

Lemma contains_iff : forall p s, contains p s = true <-> part_of p s.
Proof.
  intros p. induction s as [|x s IH]; cbn [contains]; rewrite Bool.orb_true_iff, starts_iff.
  - split.
    + intros [[b E]|E]; [exists [], b; exact E|discriminate].
    + intros (a & b & E). left. destruct a; [exists b; exact E|discriminate].
  - rewrite IH. split.
    + intros [[b E]|(a & b & ->)]; [exists [], b; exact E|exists (x :: a), b; reflexivity].
    + intros (a & b & E). destruct a as [|y a]; [left; exists b; exact E|].
      injection E as -> ->. right. exists a, b. reflexivity.
Qed.

Lemma place_some : forall A (f : A -> bool) (P : A -> Prop), (forall x, f x = true <-> P x) ->
  forall l i, find_place f l = Some i <-> first_at P l i.
Proof.
  intros A f P H. induction l as [|x l IH]; intros i; cbn [find_place].
  - split; [discriminate|]. intros [(y & E & _) _]. destruct i; discriminate.
  - destruct (f x) eqn:F.
    + split.
      * intros E. injection E as <-. split; [exists x; split; [reflexivity|apply H; exact F]|]. intros j y L. lia.
      * intros [_ N_]. destruct i as [|i]; [reflexivity|]. exfalso.
        apply (N_ 0%nat x ltac:(lia) eq_refl). apply H. exact F.
    + assert (NP: ~ P x) by (intros Q; apply H in Q; congruence). split.
      * intros E. destruct (find_place f l) as [k|] eqn:K; [|discriminate]. injection E as <-.
        destruct (proj1 (IH k) eq_refl) as [(y & E & Q) N_]. split; [exists y; split; [exact E|exact Q]|].
        intros [|j] z L Z; [injection Z as <-; exact NP|]. apply (N_ j); [lia|exact Z].
      * intros [(y & E & Q) N_]. destruct i as [|i]; [injection E as ->; contradiction|].
        assert (K: find_place f l = Some i).
        { apply IH. split; [exists y; split; [exact E|exact Q]|]. intros j z L Z. apply (N_ (S j)); [lia|exact Z]. }
        rewrite K. reflexivity.
Qed.

Lemma place_none : forall A (f : A -> bool) (P : A -> Prop), (forall x, f x = true <-> P x) ->
  forall l, find_place f l = None <-> Forall (fun x => ~ P x) l.
Proof.
  intros A f P H. induction l as [|x l IH]; cbn [find_place]; [split; [constructor|reflexivity]|].
  destruct (f x) eqn:F.
  - split; [discriminate|]. intros Q. inversion Q; subst. exfalso. apply H2. apply H. exact F.
  - assert (NP: ~ P x) by (intros Q; apply H in Q; congruence). split.
    + intros E. constructor; [exact NP|]. apply IH. destruct (find_place f l); [discriminate|reflexivity].
    + intros Q. inversion Q; subst. apply IH in H3. rewrite H3. reflexivity.
Qed.

(** GetChannelGroup gives the first group with the name; if there is none and the name has more than three
    characters, the first group whose name has it as a part; and for no name, or else, nothing. *)
Theorem C93_get_group : forall groups name i, get_group groups name = Some i <->
  name <> [] /\
  (first_at (fun g => g = name) groups i \/
   (~ In name groups /\ (3 < List.length name)%nat /\ first_at (part_of name) groups i)).
Proof.
  intros groups name i. unfold get_group. destruct name as [|a r]; [split; [discriminate|intros [H _]; congruence]|].
  set (name := a :: r). assert (NE: name <> []) by discriminate.
  pose proof (place_some _ (fun g => beq g name) (fun g => g = name) (fun g => beq_true g name) groups) as S.
  pose proof (place_none _ (fun g => beq g name) (fun g => g = name) (fun g => beq_true g name) groups) as Q.
  destruct (find_place (fun g => beq g name) groups) as [k|] eqn:K.
  - destruct (proj1 (S k) eq_refl) as [(x & X & ->) M].
    assert (I: In name groups) by (eapply nth_error_In; exact X).
    split.
    + intros E. injection E as <-. split; [exact NE|]. left. apply S. reflexivity.
    + intros [_ [F|[N_ _]]]; [apply S; exact F|contradiction].
  - pose proof (proj1 Q eq_refl) as Q'. rewrite Forall_forall in Q'.
    assert (I: ~ In name groups) by (intros J; exact (Q' name J eq_refl)).
    destruct (Nat.ltb_spec 3 (List.length name)) as [L|L].
    + rewrite (place_some _ (fun g => contains name g) (part_of name) (fun g => contains_iff name g)). split.
      * intros F. split; [exact NE|]. right. repeat split; try assumption; apply F.
      * intros [_ [[(x & X & ->) _]|(_ & _ & F)]]; [exfalso; apply I; eapply nth_error_In; exact X|exact F].
    + split; [discriminate|]. intros [_ [[(x & X & ->) _]|(_ & L' & _)]];
        [exfalso; apply I; eapply nth_error_In; exact X|lia].
Qed.
Print Assumptions C93_get_group.

(** After any program of CreateChannelGroup calls, no two groups have the same name, unless it is empty. *)
Theorem C93_groups_distinct : forall calls i j name, name <> [] ->
  nth_error (created create_group calls) i = Some name ->
  nth_error (created create_group calls) j = Some name -> i = j.
Proof.
  intros calls. unfold created.
  assert (G: forall calls l, (forall i j n, n <> [] -> nth_error l i = Some n -> nth_error l j = Some n -> i = j) ->
    forall i j n, n <> [] -> nth_error (fold_left (fun l n => fst (create_group l n)) calls l) i = Some n ->
    nth_error (fold_left (fun l n => fst (create_group l n)) calls l) j = Some n -> i = j).
  { clear calls. induction calls as [|c calls IH]; intros l H; [exact H|]. cbn [fold_left]. apply IH.
    unfold create_group. destruct (find_place _ l) as [k|] eqn:K; [exact H|].
    assert (Q: c = [] \/ ~ In c l).
    { destruct c as [|a r]; [left; reflexivity|right]. intros J.
      apply (place_none _ _ (fun g => g = a :: r)) in K.
      - rewrite Forall_forall in K. exact (K _ J eq_refl).
      - intros x. rewrite Bool.andb_true_iff, beq_true. split; [tauto|]. intros ->. split; reflexivity. }
    cbn [fst].
    assert (T: forall i n, nth_error (l ++ [c]) i = Some n -> nth_error l i = Some n \/ (i = List.length l /\ n = c)).
    { intros i n E. destruct (Nat.lt_ge_cases i (List.length l)) as [L|L].
      - rewrite nth_error_app1 in E by exact L. auto.
      - rewrite nth_error_app2 in E by exact L. right. destruct (i - List.length l)%nat as [|m] eqn:D.
        + cbn in E. injection E as ->. split; [lia|reflexivity].
        + destruct m; discriminate E. }
    intros i j n N_ E1 E2. destruct (T _ _ E1) as [F1|[-> ->]], (T _ _ E2) as [F2|[-> E]].
    - eauto.
    - subst n. exfalso. destruct Q as [Q|Q]; [contradiction|]. apply Q. eapply nth_error_In. exact F1.
    - exfalso. destruct Q as [Q|Q]; [contradiction|]. apply Q. eapply nth_error_In. exact F2.
    - reflexivity. }
  intros i j n. apply (G calls []). intros i' j' n' _ E. destruct i'; discriminate E.
Qed.
Print Assumptions C93_groups_distinct.

(** CreateChannelGroup returns a group that has the name; the groups there were stay at their places; at most
    one is added; and then GetChannelGroup finds the returned group, and creating it again returns it and
    adds nothing. *)
Theorem C93_create_group : forall calls name, name <> [] ->
  let l := created create_group calls in
  let '(l', i) := create_group l name in
  nth_error l' i = Some name /\ (exists new, l' = l ++ new /\ (List.length new <= 1)%nat) /\
  (In name l -> l' = l) /\
  get_group l' name = Some i /\ create_group l' name = (l', i).
Proof.
  intros calls name NE l. destruct (create_group l name) as [l' i] eqn:C.
  assert (Hl: created create_group (calls ++ [name]) = l').
  { unfold created. rewrite fold_left_app. cbn [fold_left]. change (fst (create_group l name) = l'). rewrite C. reflexivity. }
  assert (EQ: forall g, beq g name && negb (beq name []) = true <-> g = name).
  { intros g. rewrite Bool.andb_true_iff, beq_true. split; [tauto|]. intros ->. split; [reflexivity|].
    rewrite beq_false by exact NE. reflexivity. }
  assert (B: nth_error l' i = Some name /\ (exists new, l' = l ++ new /\ (List.length new <= 1)%nat) /\ (In name l -> l' = l)).
  { unfold create_group in C. destruct (find_place _ l) as [k|] eqn:K.
    - injection C as <- <-. apply (place_some _ _ _ EQ) in K. destruct K as [(x & X & ->) _].
      split; [exact X|]. split; [exists []; rewrite app_nil_r; split; [reflexivity|cbn; lia]|reflexivity].
    - injection C as <- <-. apply (place_none _ _ _ EQ) in K. split; [|split].
      + rewrite nth_error_app2 by lia. rewrite Nat.sub_diag. reflexivity.
      + exists [name]. split; [reflexivity|cbn; lia].
      + intros J. rewrite Forall_forall in K. exfalso. exact (K _ J eq_refl). }
  destruct B as (B1 & B2 & B3). split; [exact B1|]. split; [exact B2|]. split; [exact B3|].
  assert (F: first_at (fun g => g = name) l' i).
  { split; [exists name; auto|]. intros j y L E ->. rewrite <- Hl in E, B1.
    pose proof (C93_groups_distinct _ _ _ _ NE E B1). lia. }
  split; [apply C93_get_group; split; [exact NE|left; exact F]|].
  unfold create_group. rewrite (proj2 (place_some _ _ _ EQ l' i) F). reflexivity.
Qed.
Print Assumptions C93_create_group.

(** Without a name CreateChannelGroup always adds a group, at the end. *)
Theorem C93_unnamed : forall groups, create_group groups [] = (groups ++ [[]], List.length groups).
Proof.
  intros groups. unfold create_group.
  rewrite (proj2 (place_none _ (fun g => beq g [] && negb (beq [] [])) (fun _ => False)
    ltac:(intros x; cbn [beq negb]; rewrite Bool.andb_false_r; split; [discriminate|contradiction]) groups)); [reflexivity|].
  apply Forall_forall. intros x _ [].
Qed.
Print Assumptions C93_unnamed.

(** After any program of CreateChannel calls, no two channels have the same name; the returned channel has the
    name, the others stay at their places, and creating it again returns it and adds nothing. *)
Theorem C93_create_channel : forall calls name,
  let l := created create_channel calls in
  let '(l', i) := create_channel l name in
  NoDup l /\ nth_error l' i = Some name /\ (exists new, l' = l ++ new /\ (List.length new <= 1)%nat) /\
  (In name l -> l' = l) /\ create_channel l' name = (l', i).
Proof.
  assert (EQ: forall name g, beq g name = true <-> g = name) by (intros; apply beq_true).
  assert (ND: forall calls l, NoDup l -> NoDup (fold_left (fun l n => fst (create_channel l n)) calls l)).
  { induction calls as [|c calls IH]; intros l H; [exact H|]. cbn [fold_left]. apply IH.
    unfold create_channel. destruct (find_place _ l) as [k|] eqn:K; [exact H|]. cbn [fst].
    apply (place_none _ _ _ (EQ c)) in K. rewrite Forall_forall in K.
    apply NoDup_rev in H. rewrite <- (rev_involutive (l ++ [c])). apply NoDup_rev. rewrite rev_app_distr. cbn.
    constructor; [|exact H]. intros J. apply in_rev in J. exact (K _ J eq_refl). }
  intros calls name l. pose proof (ND calls [] (NoDup_nil _)) as D. change (NoDup l) in D.
  destruct (create_channel l name) as [l' i] eqn:C. split; [exact D|].
  assert (D': NoDup l') by (pose proof (ND [name] l D) as X; cbn [fold_left] in X; rewrite C in X; exact X).
  assert (B: nth_error l' i = Some name /\ (exists new, l' = l ++ new /\ (List.length new <= 1)%nat) /\ (In name l -> l' = l)).
  { unfold create_channel in C. destruct (find_place _ l) as [k|] eqn:K.
    - injection C as <- <-. apply (place_some _ _ _ (EQ name)) in K. destruct K as [(x & X & ->) _].
      split; [exact X|]. split; [exists []; rewrite app_nil_r; split; [reflexivity|cbn; lia]|reflexivity].
    - injection C as <- <-. apply (place_none _ _ _ (EQ name)) in K. split; [|split].
      + rewrite nth_error_app2 by lia. rewrite Nat.sub_diag. reflexivity.
      + exists [name]. split; [reflexivity|cbn; lia].
      + intros J. rewrite Forall_forall in K. exfalso. exact (K _ J eq_refl). }
  destruct B as (B1 & B2 & B3). split; [exact B1|]. split; [exact B2|]. split; [exact B3|].
  assert (F: first_at (fun g => g = name) l' i).
  { split; [exists name; auto|]. intros j y L E ->.
    assert (i < List.length l')%nat by (apply nth_error_Some; congruence).
    rewrite NoDup_nth_error in D'. specialize (D' j i ltac:(lia)). rewrite E, B1 in D'. specialize (D' eq_refl). lia. }
  unfold create_channel. rewrite (proj2 (place_some _ _ _ (EQ name) l' i) F). reflexivity.
Qed.
Print Assumptions C93_create_channel.

(** GetChannel gives the first channel whose name has the asked name as a part, and nothing exactly if there is
    none. *)
Theorem C93_get_channel : forall channels name,
  (forall i, find_channel channels name = Some i <-> first_at (part_of name) channels i) /\
  (find_channel channels name = None <-> Forall (fun c => ~ part_of name c) channels).
Proof.
  intros channels name. split; [intros i; apply place_some|apply place_none]; intros c; apply contains_iff.
Qed.
Print Assumptions C93_get_channel.

(** FINDING. GetChannel with the name of a created channel gives that channel: false. The names are searched for
    a part (ichannelgroup.cpp:59-71), so an earlier channel with a longer name is given instead: after creating
    "SpeedLimit" and "Speed", asking for "Speed" gives "SpeedLimit". GetChannelGroup prefers the full name. *)
Theorem C93_get_channel_refuted : ~ forall calls name i,
  nth_error (created create_channel calls) i = Some name -> find_channel (created create_channel calls) name = Some i.
Proof.
  intros H. specialize (H [lit "SpeedLimit"%string; lit "Speed"%string] (lit "Speed"%string) 1%nat eq_refl).
  vm_compute in H. discriminate H.
Qed.
Print Assumptions C93_get_channel_refuted.

(** In an MDF 3 file every call of CreateChannelGroup adds a new group, whatever the name, and GetChannelGroup
    finds no group, whatever the name. *)
Theorem C93_groups3 : forall calls name,
  let l := created create_group3 calls in
  List.length l = List.length calls /\ create_group3 l name = (l ++ [[]], List.length calls) /\ get_group l name = None.
Proof.
  assert (N3: forall l name, Forall (fun g => g = []) l -> create_group3 l name = (l ++ [[]], List.length l)).
  { intros l name H. unfold create_group3.
    rewrite (proj2 (place_none _ (fun g => beq g name && negb (beq name [])) (fun g => g = name /\ name <> [])
      ltac:(intros x; rewrite Bool.andb_true_iff, beq_true, Bool.negb_true_iff; split;
            [intros [-> E]; split; [reflexivity|intros ->; discriminate E]
            |intros [-> E]; split; [reflexivity|apply beq_false; exact E]]) l)); [reflexivity|].
    eapply Forall_impl; [|exact H]. cbn. intros g -> [<- E]. congruence. }
  assert (G: forall calls l, Forall (fun g => g = []) l ->
    let l' := fold_left (fun l n => fst (create_group3 l n)) calls l in
    Forall (fun g => g = []) l' /\ List.length l' = (List.length l + List.length calls)%nat).
  { induction calls as [|c calls IH]; intros l H; cbn [fold_left]; [split; [exact H|cbn; lia]|].
    rewrite N3 by exact H. cbn [fst]. specialize (IH (l ++ [[]])). cbn zeta in IH. destruct IH as [A B].
    - apply Forall_app. split; [exact H|repeat constructor].
    - split; [exact A|]. rewrite B, app_length. cbn [List.length]. lia. }
  intros calls name l. destruct (G calls [] (Forall_nil _)) as [A B]. change (Forall (fun g => g = []) l) in A.
  change (List.length l = List.length calls) in B.
  split; [exact B|]. split; [rewrite N3 by exact A; rewrite B; reflexivity|].
  destruct (get_group l name) as [i|] eqn:E; [|reflexivity]. exfalso.
  apply C93_get_group in E. destruct E as [NE [[(x & X & ->) _]|(_ & _ & [(x & X & P) _])]];
    apply nth_error_In in X; rewrite Forall_forall in A; specialize (A _ X).
  - contradiction.
  - subst x. destruct P as (a & b & P). symmetry in P. apply app_eq_nil in P. destruct P as [_ P].
    apply app_eq_nil in P. destruct P as [P _]. contradiction.
Qed.
Print Assumptions C93_groups3.

(** FINDING. CreateChannelGroup with a name that was used before returns the group of that call: false of MDF 3
    files. An MDF 3 group drops its name (cg3block.cpp:26-28), so the second call adds a second group and
    GetChannelGroup finds neither. *)
Theorem C93_groups3_refuted : ~ forall calls name, name <> [] -> In name calls ->
  fst (create_group3 (created create_group3 calls) name) = created create_group3 calls.
Proof.
  intros H. specialize (H [lit "Engine"%string] (lit "Engine"%string) ltac:(discriminate) (or_introl eq_refl)).
  vm_compute in H. discriminate H.
Qed.
Print Assumptions C93_groups3_refuted.

(** Groups are created once for each name; "Engine" is found by its name although "EngineTwo" is before it; a
    part of a name is found only with more than three characters. *)
Example C93_witness :
  let l := created create_group [lit "EngineTwo"%string; lit "Engine"%string; lit "EngineTwo"%string; []; []] in
  l = [lit "EngineTwo"%string; lit "Engine"%string; []; []] /\
  get_group l (lit "Engine"%string) = Some 1%nat /\ get_group l (lit "gine"%string) = Some 0%nat /\
  get_group l (lit "ine"%string) = None /\ create_group l (lit "Engine"%string) = (l, 1%nat) /\
  created create_channel [lit "t"%string; lit "n"%string; lit "t"%string] = [lit "t"%string; lit "n"%string] /\
  find_channel [lit "t"%string; lit "n"%string] (lit "n"%string) = Some 1%nat.
Proof. vm_compute. repeat split. Qed.
