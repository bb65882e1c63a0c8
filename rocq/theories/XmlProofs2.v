(** Proofs about XmlModel.v: a tree that is written is read back. *)
From Coq Require Import String Permutation.
From Verif Require Import Base BlockModel BlockSpec BlockProofs TextSpec XmlModel XmlSpec XmlProofs.
Local Open Scope N_scope.
Local Open Scope list_scope.

Lemma fold_events : forall a b st, fold_left on_event (a ++ b) st = fold_left on_event b (fold_left on_event a st).
Proof. intros. apply fold_left_app. Qed.

Lemma name_trim : forall n, name_ok n -> trim n = n.
Proof.
  intros n H. destruct (name_ok_chars n H) as (_ & F & NE). apply trim_id.
  assert (NS : forall c, name_char c = true -> c <> 0 /\ is_space c = false).
  { clear. intros c. unfold name_char, name_start, is_space.
    rewrite !Bool.orb_true_iff, !Bool.andb_true_iff, !Bool.orb_false_iff, !Bool.andb_false_iff,
      !N.leb_le, !N.leb_gt, !N.eqb_eq, !N.eqb_neq. lia. }
  rewrite Forall_forall in F. split.
  - intros I. apply (NS 0 (F 0 I)). reflexivity.
  - intros _. split; apply NS, F.
    + destruct n; [congruence|]. left. reflexivity.
    + destruct n as [|c n]; [congruence|]. clear. revert c.
      induction n as [|d n IH]; intros c; [left; reflexivity|]. right. apply IH.
Qed.

Section Written.
Context (order : list (list N * list N) -> list (list N * list N)) (OR : any_order order).

Definition core (lvl : nat) (n : xnode) : list N :=
  match n with
  | XNode tag attrs value kids =>
      60 :: tag ++ concat (map attr_bytes (order attrs)) ++
      match kids, value with
      | [], [] => [47; 62]
      | [], _ => 62 :: escape value ++ [60; 47] ++ tag ++ [62]
      | _, _ => [62; 10] ++ concat (map (write order (S lvl)) kids) ++ indent lvl ++ [60; 47] ++ tag ++ [62]
      end
  end.

Lemma write_core : forall lvl n, write order lvl n = indent lvl ++ core lvl n ++ [10].
Proof.
  intros lvl [tag attrs value kids]. cbn [write core]. f_equal. cbn [app]. f_equal.
  rewrite <- !app_assoc. do 2 f_equal.
  destruct kids as [|k kids]; [destruct value as [|c value]; [reflexivity|]|];
    cbn [app]; rewrite <- ?app_assoc; cbn [app]; rewrite <- ?app_assoc; reflexivity.
Qed.

(** The start tag. *)
Lemma attrs_length : forall l, (length l <= length (concat (map attr_bytes l)))%nat.
Proof.
  induction l as [|a l IH]; [cbn; lia|]. cbn [map concat]. rewrite app_length. unfold attr_bytes at 1.
  cbn [length]. lia.
Qed.

Lemma order_ok : forall attrs, NoDup (map fst attrs) ->
  Forall (fun a => name_ok (fst a) /\ line_ok (snd a)) attrs ->
  NoDup (map fst (order attrs)) /\ Forall (fun a => name_ok (fst a) /\ line_ok (snd a)) (order attrs).
Proof.
  intros attrs ND F. split.
  - eapply Permutation_NoDup; [|exact ND]. apply Permutation_map, OR.
  - eapply Permutation_Forall; [apply OR|exact F].
Qed.

Lemma lex_start : forall tag attrs (e : bool) fin open seen r fuel, name_ok tag -> NoDup (map fst attrs) ->
  Forall (fun a => name_ok (fst a) /\ line_ok (snd a)) attrs -> fin = (if e then [47; 62] else [62]) ->
  (open = [] -> seen = false) ->
  lex (S fuel) open seen (60 :: tag ++ concat (map attr_bytes (order attrs)) ++ fin ++ r)
  = if e then emit [EStart tag (order attrs); EEnd]
                (lex fuel open (match open with [] => true | _ => seen end) r)
    else emit [EStart tag (order attrs)] (lex fuel (tag :: open) seen r).
Proof.
  intros tag attrs e fin open seen r fuel NT ND F EF OS.
  destruct (order_ok attrs ND F) as [ND' F'].
  set (S1 := concat (map attr_bytes (order attrs)) ++ fin ++ r).
  assert (NC : name_char (List.hd 0 S1) = false).
  { unfold S1. destruct (order attrs) as [|[k v] l].
    - subst fin. destruct e; reflexivity.
    - reflexivity. }
  pose proof (read_name_app tag S1 NT NC) as RN.
  assert (AL : attr_list (length (tag ++ S1)) S1 = Some (order attrs, e, r)).
  { apply attr_list_attrs; auto. destruct (name_ok_chars tag NT) as (_ & _ & NE).
    destruct tag as [|c tag]; [congruence|]. cbn [app length]. rewrite app_length. unfold S1.
    rewrite app_length. pose proof (attrs_length (order attrs)). lia. }
  destruct (name_ok_chars tag NT) as (ST & _ & NE). destruct tag as [|c tag]; [congruence|].
  cbn [List.hd app] in *. cbn [lex].
  change (60 =? 60) with true. cbn iota.
  assert (C47 : (c =? 47) = false).
  { apply N.eqb_neq. intros ->. discriminate ST. }
  rewrite C47.
  replace (match open with [] => seen | _ :: _ => false end) with false
    by (destruct open; [symmetry; apply OS; reflexivity|reflexivity]).
  rewrite RN, AL. destruct e; reflexivity.
Qed.

Lemma lex_end : forall tag os seen r fuel, name_ok tag ->
  lex (S fuel) (tag :: os) seen ([60; 47] ++ tag ++ [62] ++ r)
  = emit [EEnd] (lex fuel os (match os with [] => true | _ => seen end) r).
Proof.
  intros tag os seen r fuel NT. cbn [app lex]. change (60 =? 60) with true. change (47 =? 47) with true. cbn iota.
  rewrite read_name_app by auto. cbn [skip_ws]. change (blank 62) with false. cbn iota.
  change (62 =? 62) with true. rewrite beq_refl. reflexivity.
Qed.

(** A node: its events put it on the stack and close it. *)
Definition reads_back (n : xnode) : Prop :=
  forall lvl open seen r fuel, (open = [] -> seen = false) -> (length (core lvl n ++ r) < fuel)%nat ->
  exists es fuel' n', (length r < fuel')%nat /\
    lex fuel open seen (core lvl n ++ r) = emit es (lex fuel' open (match open with [] => true | _ => seen end) r) /\
    same n n' /\ forall root st, fold_left on_event es (root, st) = on_event (root, n' :: st) EEnd.

Definition more (w : list N) (ks : list xnode) (p : xnode) : xnode :=
  XNode (x_tag p) (x_attrs p) (x_value p ++ w) (x_kids p ++ ks).

Lemma more_more : forall w1 k1 w2 k2 p, more w2 k2 (more w1 k1 p) = more (w1 ++ w2) (k1 ++ k2) p.
Proof. intros. unfold more. cbn. rewrite !app_assoc. reflexivity. Qed.

Lemma run_blank : forall w root p st, blank_text w ->
  fold_left on_event (texts w) (root, p :: st) = (root, more w [] p :: st).
Proof.
  intros w root p st B. rewrite run_texts, utf8_text_blank by auto. unfold more, set_value.
  rewrite app_nil_r. reflexivity.
Qed.

Lemma lex_kids : forall lvl kids, Forall reads_back kids -> forall o os seen r fuel,
  (length (concat (map (write order lvl) kids) ++ r) < fuel)%nat ->
  exists es fuel' w kids', (length r < fuel')%nat /\
    lex fuel (o :: os) seen (concat (map (write order lvl) kids) ++ r) = emit es (lex fuel' (o :: os) seen r) /\
    blank_text w /\ Forall2 same kids kids' /\
    forall root p st, fold_left on_event es (root, p :: st) = (root, more w kids' p :: st).
Proof.
  intros lvl kids. induction 1 as [|k kids H F IH]; intros o os seen r fuel B.
  - exists [], fuel, [], []. repeat split; auto.
    + rewrite emit_nil. reflexivity.
    + constructor.
    + intros root p st. cbn. unfold more. rewrite !app_nil_r. destruct p; reflexivity.
  - cbn [map concat] in *. rewrite write_core in *. rewrite <- !app_assoc in *.
    set (R1 := concat (map (write order lvl) kids) ++ r) in *.
    destruct (lex_blank (indent lvl) (indent_blank lvl) fuel o os seen (core lvl k ++ [10] ++ R1) B)
      as (f1 & B1 & E1).
    destruct (H lvl (o :: os) seen ([10] ++ R1) f1 ltac:(discriminate) B1) as (es & f2 & k' & B2 & E2 & S2 & RUN2).
    assert (BL10 : blank_text [10]) by (constructor; [auto|constructor]).
    destruct (lex_blank [10] BL10 f2 o os seen R1 B2) as (f3 & B3 & E3).
    destruct (IH o os seen r f3 B3) as (es4 & f4 & w4 & ks4 & B4 & E4 & BL4 & S4 & RUN4).
    exists (texts (indent lvl) ++ es ++ texts [10] ++ es4), f4, (indent lvl ++ [10] ++ w4), (k' :: ks4).
    split; [exact B4|]. split.
    { rewrite E1, E2, E3. unfold R1. rewrite E4, !emit_emit, <- ?app_assoc. reflexivity. }
    split; [|split].
    + apply Forall_app. split; [apply indent_blank|]. apply Forall_app. split; auto.
    + constructor; auto.
    + intros root p st. rewrite !fold_events, run_blank by apply indent_blank. rewrite RUN2.
      cbn [on_event]. rewrite run_blank by auto. rewrite RUN4.
      unfold more, add_kid, set_kids. cbn [x_tag x_attrs x_value x_kids].
      rewrite !app_nil_r, <- !app_assoc. reflexivity.
Qed.

Lemma node_reads_back : forall n, node_ok n -> reads_back n.
Proof.
  induction n as [tag attrs value kids IH] using xnode_ind2. intros OK.
  inversion OK as [? ? ? ? NT ND FA TV FK]; subst.
  assert (IHK : Forall reads_back kids).
  { clear - IH FK. induction IH as [|k ks H F IH2]; constructor; inversion FK; subst; auto. }
  clear IH OK FK. intros lvl open seen r fuel OS B.
  destruct fuel as [|fuel]; [lia|]. cbn [core] in B |- *.
  destruct kids as [|k kids].
  - destruct value as [|c value].
    + exists [EStart tag (order attrs); EEnd], fuel, (XNode tag (order attrs) [] []).
      split; [|split; [|split]].
      * cbn [app length] in B. rewrite !app_length in B. cbn [length] in B. lia.
      * cbn [app]. rewrite <- !app_assoc. apply (lex_start tag attrs true [47; 62]); auto.
      * constructor. apply OR.
      * intros root st. cbn [fold_left on_event]. rewrite name_trim by auto. reflexivity.
    + set (v := c :: value) in *. assert (NV : v <> []) by discriminate. clearbody v. clear c value.
      destruct TV as (cps & FC & EV).
      assert (B' : (length (escape v ++ 60%N :: 47%N :: tag ++ [62%N] ++ r) < fuel)%nat).
      { cbn [app length] in B. rewrite !app_length in B. cbn [app length] in B.
        rewrite !app_length in B. cbn [app length] in B. rewrite !app_length in B. cbn [length] in B.
        rewrite app_length. cbn [app length]. rewrite !app_length. cbn [length]. lia. }
      rewrite EV in B'.
      destruct (lex_text cps FC fuel tag open seen (47 :: tag ++ [62] ++ r) B') as (f1 & B1 & E1).
      destruct f1 as [|f1]; [lia|].
      exists (EStart tag (order attrs) :: texts cps ++ [EEnd]), f1, (XNode tag (order attrs) v []).
      split; [|split; [|split]].
      * cbn [app length] in B1. rewrite !app_length in B1. cbn [length] in B1. lia.
      * replace ((60 :: tag ++ concat (map attr_bytes (order attrs)) ++
                  62 :: escape v ++ [60; 47] ++ tag ++ [62]) ++ r)
          with (60 :: tag ++ concat (map attr_bytes (order attrs)) ++ [62] ++
                (escape v ++ 60 :: 47 :: tag ++ [62] ++ r)).
        2:{ cbn [app]. rewrite <- !app_assoc. cbn [app].
            rewrite <- !app_assoc. cbn [app]. rewrite <- !app_assoc. reflexivity. }
        rewrite (lex_start tag attrs false [62]) by auto. rewrite EV at 1. rewrite E1.
        change (60 :: 47 :: tag ++ [62] ++ r) with ([60; 47] ++ tag ++ [62] ++ r).
        rewrite lex_end by auto. rewrite !emit_emit, <- app_assoc. cbn [app]. reflexivity.
      * constructor. apply OR.
      * intros root st. cbn [fold_left]. rewrite fold_events. cbn [on_event].
        rewrite run_texts. cbn [fold_left]. rewrite name_trim by auto.
        unfold set_value. cbn [x_value x_tag x_attrs x_kids app]. rewrite <- EV. reflexivity.
  - set (ks := k :: kids) in *. assert (NK : ks <> []) by discriminate. clearbody ks. clear k kids.
    set (KB := concat (map (write order (S lvl)) ks)) in *.
    assert (SHAPE : (60 :: tag ++ concat (map attr_bytes (order attrs)) ++
               [62; 10] ++ KB ++ indent lvl ++ [60; 47] ++ tag ++ [62]) ++ r
              = 60 :: tag ++ concat (map attr_bytes (order attrs)) ++ [62] ++
                ([10] ++ KB ++ indent lvl ++ [60; 47] ++ tag ++ [62] ++ r)).
    { cbn [app]. rewrite <- !app_assoc. cbn [app].
      rewrite <- !app_assoc. cbn [app]. rewrite <- !app_assoc. reflexivity. }
    rewrite SHAPE in *. clear SHAPE.
    set (R2 := [60; 47] ++ tag ++ [62] ++ r).
    assert (B0 : (length ([10%N] ++ KB ++ indent lvl ++ R2) < fuel)%nat).
    { clear - B. fold R2 in B. set (X := [10] ++ KB ++ indent lvl ++ R2) in *. clearbody X.
      cbn [length] in B. rewrite !app_length in B. cbn [length] in B. lia. }
    assert (BL10 : blank_text [10]) by (constructor; [auto|constructor]).
    destruct (lex_blank [10] BL10 fuel tag open seen (KB ++ indent lvl ++ R2) B0) as (f1 & B1 & E1).
    destruct (lex_kids (S lvl) ks IHK tag open seen (indent lvl ++ R2) f1 B1)
      as (es2 & f2 & w2 & ks2 & B2 & E2 & BL2 & S2 & RUN2).
    destruct (lex_blank (indent lvl) (indent_blank lvl) f2 tag open seen R2 B2) as (f3 & B3 & E3).
    destruct f3 as [|f3]; [lia|].
    exists (EStart tag (order attrs) :: texts [10] ++ es2 ++ texts (indent lvl) ++ [EEnd]), f3,
      (XNode tag (order attrs) ([10] ++ w2 ++ indent lvl) ks2).
    split; [|split; [|split]].
    + unfold R2 in B3. rewrite !app_length in B3. cbn [length] in B3. lia.
    + rewrite (lex_start tag attrs false [62]) by auto. fold R2.
      rewrite E1. fold KB in E2. rewrite E2, E3. unfold R2 at 1. rewrite lex_end by auto.
      rewrite !emit_emit, <- !app_assoc. cbn [app]. reflexivity.
    + constructor; auto. apply Forall_app. split; auto. apply Forall_app. split; auto. apply indent_blank.
    + intros root st. cbn [fold_left]. rewrite !fold_events. cbn [on_event].
      rewrite run_blank by auto. rewrite RUN2, run_blank by apply indent_blank. cbn [fold_left].
      rewrite !more_more. unfold more. cbn [x_tag x_attrs x_value x_kids app].
      rewrite name_trim by auto. rewrite app_nil_r. reflexivity.
Qed.

(** The whole document. *)
Lemma parse_written : forall n, node_ok n -> exists n', parse_string (write order 0 n) = (Some n', true) /\ same n n'.
Proof.
  intros n OK. unfold parse_string.
  pose proof (node_reads_back n OK) as RB.
  assert (W : write order 0 n = core 0 n ++ [10]) by (rewrite write_core; reflexivity).
  rewrite W.
  destruct (RB 0%nat [] false [10] (S (length (core 0 n ++ [10]))) ltac:(reflexivity) ltac:(lia))
    as (es & f1 & n' & B1 & E1 & SM & RUN).
  rewrite E1. destruct f1 as [|f1]; [cbn in B1; lia|]. destruct f1 as [|f1]; [cbn in B1; lia|].
  cbn [lex]. change (10 =? 60) with false. change (blank 10) with true. cbn iota.
  unfold emit. cbn [fst snd]. rewrite app_nil_r, RUN. cbn [on_event]. exists n'. auto.
Qed.

(** The same document without the white space at its end (Tx4Block::Text). *)
Lemma parse_trimmed : forall n, node_ok n ->
  exists n', parse_string (trim (write order 0 n)) = (Some n', true) /\ same n n'.
Proof.
  intros n OK. unfold parse_string.
  pose proof (node_reads_back n OK) as RB.
  assert (W : write order 0 n = core 0 n ++ [10]) by (rewrite write_core; reflexivity).
  assert (T : trim (write order 0 n) = core 0 n).
  { rewrite W. assert (L : exists c, core 0 n = 60 :: c /\ last (core 0 n) 0 = 62).
    { destruct n as [tag attrs value kids]. cbn [core]. eexists. split; [reflexivity|].
      clear. set (A := concat (map attr_bytes (order attrs))). clearbody A.
      assert (G : forall a, last (a ++ [62]) 0 = 62) by (intros; apply last_last).
      destruct kids as [|k kids]; [destruct value as [|c value]|].
      - change [47; 62] with ([47] ++ [62]). rewrite 2 app_assoc. change (60 :: ((tag ++ A) ++ [47]) ++ [62]) with
          ((60 :: (tag ++ A) ++ [47]) ++ [62]). apply G.
      - replace (60 :: tag ++ A ++ 62 :: escape (c :: value) ++ [60; 47] ++ tag ++ [62])
          with ((60 :: tag ++ A ++ 62 :: escape (c :: value) ++ [60; 47] ++ tag) ++ [62])
          by (cbn [app]; rewrite <- !app_assoc; cbn [app]; rewrite <- !app_assoc; reflexivity). apply G.
      - set (K := concat _). clearbody K.
        replace (60 :: tag ++ A ++ [62; 10] ++ K ++ indent 0 ++ [60; 47] ++ tag ++ [62])
          with ((60 :: tag ++ A ++ [62; 10] ++ K ++ indent 0 ++ [60; 47] ++ tag) ++ [62])
          by (cbn [app]; rewrite <- !app_assoc; cbn [app]; rewrite <- !app_assoc; reflexivity). apply G. }
    destruct L as (c & E & L). clear - E L. unfold trim.
    assert (LT : ltrim (core 0 n ++ [10]) = core 0 n ++ [10]) by (rewrite E; reflexivity).
    rewrite LT. unfold rtrim. rewrite rev_app_distr. cbn [rev app ltrim]. change (is_space 10) with true. cbn iota.
    rewrite ltrim_id.
    - apply rev_involutive.
    - left. rewrite hd_rev, L. reflexivity. }
  rewrite T.
  destruct (RB 0%nat [] false [] (S (length (core 0 n ++ []))) ltac:(reflexivity) ltac:(lia))
    as (es & f1 & n' & B1 & E1 & SM & RUN).
  rewrite app_nil_r in E1.
  rewrite E1. destruct f1 as [|f1]; [cbn in B1; lia|].
  cbn [lex]. unfold emit. cbn [fst snd]. rewrite app_nil_r, RUN. cbn [on_event]. exists n'. auto.
Qed.

End Written.
