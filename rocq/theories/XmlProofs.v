(** Proofs about XmlModel.v: what is written is read back. *)
From Coq Require Import String Permutation.
From Verif Require Import Base BlockModel TextSpec XmlModel XmlSpec.
Local Open Scope N_scope.
Local Open Scope list_scope.

Lemma xnode_ind2 : forall P : xnode -> Prop,
  (forall t a v ks, Forall P ks -> P (XNode t a v ks)) -> forall n, P n.
Proof.
  intros P H. fix IH 1. intros [t a v ks]. apply H.
  induction ks as [|k ks IHk]; constructor; [apply IH|apply IHk].
Qed.

Lemma beq_true : forall a b, beq a b = true <-> a = b.
Proof. intros a b. unfold beq. destruct (list_eq_dec N.eq_dec a b); split; congruence. Qed.
Lemma beq_refl : forall a, beq a a = true.
Proof. intros a. apply beq_true. reflexivity. Qed.
Lemma beq_false : forall a b, a <> b -> beq a b = false.
Proof. intros a b H. unfold beq. destruct (list_eq_dec N.eq_dec a b); congruence. Qed.

(* ------------------------------------------------------------------ *)
(** ** Characters *)

Lemma lit_lt : lit "&lt;" = 38 :: lit "lt;". Proof. reflexivity. Qed.

Lemma entity_lt : forall r, entity (lit "lt;" ++ r) = Some ([60], r). Proof. reflexivity. Qed.
Lemma entity_gt : forall r, entity (lit "gt;" ++ r) = Some ([62], r). Proof. reflexivity. Qed.
Lemma entity_amp : forall r, entity (lit "amp;" ++ r) = Some ([38], r). Proof. reflexivity. Qed.
Lemma entity_quot : forall r, entity (lit "quot;" ++ r) = Some ([34], r). Proof. reflexivity. Qed.
Lemma entity_apos : forall r, entity (lit "apos;" ++ r) = Some ([39], r). Proof. reflexivity. Qed.

Ltac bools := repeat match goal with
  | |- context [?a =? ?b] => first [rewrite (proj2 (N.eqb_eq a b)) by lia | rewrite (proj2 (N.eqb_neq a b)) by lia]
  | |- context [?a <? ?b] => first [rewrite (proj2 (N.ltb_lt a b)) by lia | rewrite (proj2 (N.ltb_ge a b)) by lia]
  | |- context [?a <=? ?b] => first [rewrite (proj2 (N.leb_le a b)) by lia | rewrite (proj2 (N.leb_gt a b)) by lia]
  end; cbn [andb orb negb].

Lemma mod64 : forall x, x mod 64 < 64.
Proof. intros x. apply N.mod_lt. lia. Qed.

Lemma xchar_utf8 : forall cp r, xml_cp cp -> xchar (utf8 cp ++ r) = Some (utf8 cp, r).
Proof.
  intros cp r H. unfold utf8, xml_cp in *.
  destruct (cp <? 128) eqn:E1.
  { apply N.ltb_lt in E1. cbn [app xchar]. bools.
    replace ((cp =? 9) || (cp =? 10) || (32 <=? cp)) with true; [reflexivity|].
    symmetry. rewrite !Bool.orb_true_iff, !N.eqb_eq, N.leb_le. lia. }
  apply N.ltb_ge in E1. destruct (cp <? 2048) eqn:E2.
  { apply N.ltb_lt in E2. pose proof (mod64 cp) as M. cbn [app xchar].
    assert (D : 2 <= cp / 64 < 32) by (split; [apply N.div_le_lower_bound|apply N.div_lt_upper_bound]; lia).
    unfold cont. bools. reflexivity. }
  apply N.ltb_ge in E2. destruct (cp <? 65536) eqn:E3.
  { apply N.ltb_lt in E3. pose proof (mod64 cp) as M. pose proof (mod64 (cp / 64)) as M2.
    assert (D : cp / 4096 < 16) by (apply N.div_lt_upper_bound; lia).
    pose proof (N.div_mod cp 64 ltac:(lia)) as Q1. pose proof (N.div_mod (cp / 64) 64 ltac:(lia)) as Q2.
    rewrite N.div_div in Q2 by lia. change (64 * 64) with 4096 in Q2.
    set (a := cp / 4096) in *. set (b := (cp / 64) mod 64) in *. set (c := cp mod 64) in *.
    rewrite Q2 in Q1. clearbody a b c. clear Q2.
    cbn [app xchar]. unfold cont. bools.
    assert (X1 : (224 + a =? 224) && (128 + b <? 160) = false).
    { apply Bool.andb_false_iff. destruct (N.eq_dec a 0).
      - right. apply N.ltb_ge. lia.
      - left. apply N.eqb_neq. lia. }
    assert (X2 : (224 + a =? 237) && (159 <? 128 + b) = false).
    { apply Bool.andb_false_iff. destruct (N.eq_dec a 13).
      - right. apply N.ltb_ge. lia.
      - left. apply N.eqb_neq. lia. }
    assert (X3 : (224 + a =? 239) && (128 + b =? 191) && (189 <? 128 + c) = false).
    { apply Bool.andb_false_iff. destruct (N.eq_dec a 15).
      - destruct (N.eq_dec b 63).
        + right. apply N.ltb_ge. lia.
        + left. apply Bool.andb_false_iff. right. apply N.eqb_neq. lia.
      - left. apply Bool.andb_false_iff. left. apply N.eqb_neq. lia. }
    rewrite X1, X2, X3. reflexivity. }
  apply N.ltb_ge in E3.
  pose proof (mod64 cp) as M. pose proof (mod64 (cp / 64)) as M2. pose proof (mod64 (cp / 4096)) as M3.
  assert (D : cp / 262144 < 5) by (apply N.div_lt_upper_bound; lia).
  pose proof (N.div_mod cp 64 ltac:(lia)) as Q1. pose proof (N.div_mod (cp / 64) 64 ltac:(lia)) as Q2.
  rewrite N.div_div in Q2 by lia. change (64 * 64) with 4096 in Q2.
  pose proof (N.div_mod (cp / 4096) 64 ltac:(lia)) as Q3.
  rewrite N.div_div in Q3 by lia. change (4096 * 64) with 262144 in Q3.
  set (a := cp / 262144) in *. set (b := (cp / 4096) mod 64) in *.
  set (c := (cp / 64) mod 64) in *. set (d := cp mod 64) in *.
  rewrite Q3 in Q2. rewrite Q2 in Q1. clearbody a b c d. clear Q2 Q3.
  cbn [app xchar]. unfold cont. bools.
  assert (X1 : (240 + a =? 240) && (128 + b <? 144) = false).
  { apply Bool.andb_false_iff. destruct (N.eq_dec a 0).
    - right. apply N.ltb_ge. lia.
    - left. apply N.eqb_neq. lia. }
  assert (X2 : (240 + a =? 244) && (143 <? 128 + b) = false).
  { apply Bool.andb_false_iff. destruct (N.eq_dec a 4).
    - right. apply N.ltb_ge. lia.
    - left. apply N.eqb_neq. lia. }
  rewrite X1, X2. reflexivity.
Qed.

Lemma esc_high : forall c, 128 <= c -> esc c = [c].
Proof. intros c H. unfold esc. bools. reflexivity. Qed.

Lemma utf8_high : forall cp, 128 <= cp -> Forall (fun c => 128 <= c) (utf8 cp).
Proof.
  intros cp H. unfold utf8. bools. destruct (cp <? 2048); [repeat constructor; lia|].
  destruct (cp <? 65536); repeat constructor; lia.
Qed.

Lemma escape_app : forall a b, escape (a ++ b) = escape a ++ escape b.
Proof. intros. unfold escape. rewrite map_app, concat_app. reflexivity. Qed.

Lemma escape_high : forall s, Forall (fun c => 128 <= c) s -> escape s = s.
Proof.
  induction 1 as [|c s H F IH]; [reflexivity|]. change (c :: s) with ([c] ++ s). rewrite escape_app, IH.
  unfold escape. cbn [map concat]. rewrite esc_high by auto. reflexivity.
Qed.

Lemma utf8_cons : forall cp, exists c r, utf8 cp = c :: r /\ (cp < 128 -> c = cp /\ r = []) /\ (128 <= cp -> 128 <= c).
Proof.
  intros cp. destruct (N.lt_ge_cases cp 128) as [L|G].
  - exists cp, []. unfold utf8. bools. repeat split; lia.
  - pose proof (utf8_high cp G) as F. unfold utf8 in *. revert F. bools.
    destruct (cp <? 2048); [|destruct (cp <? 65536)]; intros F; inversion F; subst;
      eexists; eexists; (split; [reflexivity|]); split; intros; try lia.
Qed.

Lemma escape_utf8 : forall cp, escape (utf8 cp) = if cp <? 128 then esc cp else utf8 cp.
Proof.
  intros cp. destruct (cp <? 128) eqn:E.
  - unfold utf8. rewrite E. unfold escape. cbn. apply app_nil_r.
  - apply N.ltb_ge in E. apply escape_high, utf8_high. auto.
Qed.

Lemma in_lit62 : forall x c, In 62 (esc c) -> x = c -> False.
Proof.
  intros x c H _. unfold esc in H.
  destruct (c =? 60) eqn:E1; [cbn in H; intuition discriminate|].
  destruct (c =? 62) eqn:E2; [cbn in H; intuition discriminate|].
  destruct (c =? 38) eqn:E3; [cbn in H; intuition discriminate|].
  destruct (c =? 34) eqn:E4; [cbn in H; intuition discriminate|].
  destruct (c =? 39) eqn:E5; [cbn in H; intuition discriminate|].
  destruct H as [H|[]]. apply N.eqb_neq in E2. congruence.
Qed.

Lemma escape_no62 : forall s, ~ In 62 (escape s).
Proof.
  intros s H. unfold escape in H. apply in_concat in H. destruct H as (l & Hl & H).
  apply in_map_iff in Hl. destruct Hl as (c & E & _). subst l. exact (in_lit62 c c H eq_refl).
Qed.

Lemma strip_some : forall p s r, strip p s = Some r -> s = p ++ r.
Proof.
  induction p as [|a p IH]; intros s r H.
  - cbn in *. congruence.
  - destruct s as [|b s]; [discriminate|]. cbn [strip] in H. destruct (a =? b) eqn:E; [|discriminate].
    apply N.eqb_eq in E. subst. cbn. f_equal. apply IH. auto.
Qed.

Lemma no_cdata_end : forall v r, strip (lit "]]>") (escape v ++ 60 :: r) = None.
Proof.
  intros v r. destruct (strip (lit "]]>") (escape v ++ 60 :: r)) as [t|] eqn:E; [|reflexivity].
  exfalso. apply strip_some in E. change (lit "]]>") with [93; 93; 62] in E. cbn [app] in E.
  pose proof (escape_no62 v) as N62. destruct (escape v) as [|a [|b [|c e]]]; cbn [app] in E.
  - discriminate E.
  - discriminate E.
  - discriminate E.
  - injection E as -> -> -> _. apply N62. cbn. auto.
Qed.

(* ------------------------------------------------------------------ *)
(** ** Text *)

Lemma esc_cases : forall c, c < 128 ->
  (esc c = [c] /\ c <> 60 /\ c <> 38 /\ c <> 39 /\ c <> 34) \/
  (exists e, esc c = 38 :: e /\ forall r, entity (e ++ r) = Some ([c], r)).
Proof.
  intros c _. unfold esc.
  destruct (c =? 60) eqn:E1; [apply N.eqb_eq in E1; subst; right; eexists; split; [reflexivity|apply entity_lt]|].
  destruct (c =? 62) eqn:E2; [apply N.eqb_eq in E2; subst; right; eexists; split; [reflexivity|apply entity_gt]|].
  destruct (c =? 38) eqn:E3; [apply N.eqb_eq in E3; subst; right; eexists; split; [reflexivity|apply entity_amp]|].
  destruct (c =? 34) eqn:E4; [apply N.eqb_eq in E4; subst; right; eexists; split; [reflexivity|apply entity_quot]|].
  destruct (c =? 39) eqn:E5; [apply N.eqb_eq in E5; subst; right; eexists; split; [reflexivity|apply entity_apos]|].
  apply N.eqb_neq in E1, E2, E3, E4, E5. left. auto.
Qed.

Lemma lex_char : forall cp fuel o os seen r, xml_cp cp -> strip (lit "]]>") (escape (utf8 cp) ++ r) = None ->
  lex (S fuel) (o :: os) seen (escape (utf8 cp) ++ r) = emit [EText (utf8 cp)] (lex fuel (o :: os) seen r).
Proof.
  intros cp fuel o os seen r H NS.
  destruct (utf8_cons cp) as (c & t & E & L & G).
  rewrite escape_utf8 in *. destruct (cp <? 128) eqn:S.
  - apply N.ltb_lt in S. destruct (L S) as [-> ->].
    destruct (esc_cases cp S) as [(X & A1 & A2 & A3 & A4)|(e & X & EN)].
    + rewrite X in *. cbn [app] in *. cbn [lex]. bools. rewrite NS.
      pose proof (xchar_utf8 cp r H) as Y. rewrite E in Y. cbn [app] in Y. rewrite Y, E. reflexivity.
    + rewrite X in *. cbn [app] in *. cbn [lex]. bools. rewrite NS, EN, E. reflexivity.
  - apply N.ltb_ge in S. specialize (G S). pose proof (xchar_utf8 cp r H) as Y.
    rewrite E in *. cbn [app] in *. cbn [lex]. bools. rewrite NS, Y. reflexivity.
Qed.

Lemma emit_emit : forall a b r, emit a (emit b r) = emit (a ++ b) r.
Proof. intros. unfold emit. cbn. rewrite app_assoc. reflexivity. Qed.
Lemma emit_nil : forall r, emit [] r = r.
Proof. intros [a b]. reflexivity. Qed.

Definition texts (cps : list N) : list event := map (fun cp => EText (utf8 cp)) cps.

Lemma escape_text_cons : forall cp cps, escape (utf8_text (cp :: cps)) = escape (utf8 cp) ++ escape (utf8_text cps).
Proof. intros. unfold utf8_text. cbn [map concat]. apply escape_app. Qed.

Lemma escape_utf8_length : forall cp, (1 <= length (escape (utf8 cp)))%nat.
Proof.
  intros cp. rewrite escape_utf8. destruct (cp <? 128) eqn:E.
  - unfold esc. repeat match goal with |- context [if ?b then _ else _] => destruct b end; cbn; lia.
  - destruct (utf8_cons cp) as (c & t & X & _). rewrite X. cbn. lia.
Qed.

Lemma lex_text : forall cps, Forall xml_cp cps -> forall fuel o os seen r,
  (length (escape (utf8_text cps) ++ 60%N :: r) < fuel)%nat ->
  exists fuel', (length (60%N :: r) < fuel')%nat /\
  lex fuel (o :: os) seen (escape (utf8_text cps) ++ 60 :: r)
  = emit (texts cps) (lex fuel' (o :: os) seen (60 :: r)).
Proof.
  induction 1 as [|cp cps H F IH]; intros fuel o os seen r B.
  - exists fuel. split; [exact B|]. unfold texts. cbn [map]. rewrite emit_nil. reflexivity.
  - destruct fuel as [|fuel]; [lia|]. pose proof (no_cdata_end (utf8_text (cp :: cps)) r) as NS.
    rewrite escape_text_cons in *. rewrite <- app_assoc in *.
    rewrite lex_char by auto.
    destruct (IH fuel o os seen r) as (fuel' & B' & E).
    { rewrite app_length in B. pose proof (escape_utf8_length cp). lia. }
    exists fuel'. split; auto. rewrite E, emit_emit. reflexivity.
Qed.

Lemma run_texts : forall cps root n st,
  fold_left on_event (texts cps) (root, n :: st) = (root, set_value (x_value n ++ utf8_text cps) n :: st).
Proof.
  induction cps as [|cp cps IH]; intros root n st.
  - cbn. rewrite app_nil_r. destruct n; reflexivity.
  - cbn [texts map fold_left on_event]. fold (texts cps). rewrite IH. destruct n as [t a v k].
    unfold set_value. cbn [x_value x_tag x_attrs x_kids]. unfold utf8_text. cbn [map concat].
    rewrite app_assoc. reflexivity.
Qed.

Lemma lex_blank : forall w, blank_text w -> forall fuel o os seen r, (length (w ++ r) < fuel)%nat ->
  exists fuel', (length r < fuel')%nat /\
  lex fuel (o :: os) seen (w ++ r) = emit (texts w) (lex fuel' (o :: os) seen r).
Proof.
  induction 1 as [|c w H F IH]; intros fuel o os seen r B.
  - exists fuel. split; [exact B|]. unfold texts. cbn [map]. rewrite emit_nil. reflexivity.
  - destruct fuel as [|fuel]; [lia|].
    assert (E8 : escape (utf8 c) = [c]) by (destruct H as [-> | ->]; reflexivity).
    change ((c :: w) ++ r) with ([c] ++ (w ++ r)). rewrite <- E8.
    rewrite lex_char.
    + destruct (IH fuel o os seen r) as (fuel' & B' & E).
      { rewrite app_length in *. cbn [length] in B. lia. }
      exists fuel'. split; auto. rewrite E, emit_emit. reflexivity.
    + unfold xml_cp. lia.
    + rewrite E8. destruct H as [-> | ->]; reflexivity.
Qed.

Lemma utf8_text_blank : forall w, blank_text w -> utf8_text w = w.
Proof.
  induction 1 as [|c w H F IH]; [reflexivity|]. unfold utf8_text in *. cbn [map concat]. rewrite IH.
  destruct H as [-> | ->]; reflexivity.
Qed.

Lemma indent_blank : forall l, blank_text (indent l).
Proof. intros l. unfold indent, blank_text. apply Forall_forall. intros x H. apply repeat_spec in H. auto. Qed.

(* ------------------------------------------------------------------ *)
(** ** Names and attributes *)

Lemma name_ok_chars : forall n, name_ok n -> name_start (List.hd 0 n) = true /\ Forall (fun c => name_char c = true) n /\ n <> [].
Proof.
  intros [|c r] H; [contradiction|]. destruct H as [H F]. cbn [List.hd].
  assert (S : name_start c = true).
  { unfold name_start. unfold letter in H.
    rewrite !Bool.orb_true_iff, !Bool.andb_true_iff, !N.leb_le, !N.eqb_eq. lia. }
  split; [exact S|]. split; [|discriminate]. constructor.
  - unfold name_char. rewrite S. reflexivity.
  - eapply Forall_impl; [|exact F]. cbv beta. intros a D. unfold name_char, name_start. unfold letter in D.
    rewrite !Bool.orb_true_iff, !Bool.andb_true_iff, !N.leb_le, !N.eqb_eq. lia.
Qed.

Lemma span_name_app : forall n r, Forall (fun c => name_char c = true) n -> name_char (List.hd 0 r) = false ->
  span_name (n ++ r) = (n, r).
Proof.
  induction 1 as [|c n H F IH]; intros E.
  - cbn [app]. destruct r as [|c r]; [reflexivity|]. cbn [span_name List.hd] in *. rewrite E. reflexivity.
  - cbn [app span_name]. rewrite H, IH by auto. reflexivity.
Qed.

Lemma read_name_app : forall n r, name_ok n -> name_char (List.hd 0 r) = false -> read_name (n ++ r) = Some (n, r).
Proof.
  intros n r H E. destruct (name_ok_chars n H) as (S & F & NE).
  rewrite <- (span_name_app n r F E). unfold read_name. destruct n as [|c n]; [congruence|].
  cbn [app List.hd] in *. rewrite S. reflexivity.
Qed.

Lemma attr_value_text : forall cps, Forall (fun c => xml_cp c /\ 32 <= c) cps -> forall r fuel,
  (length (escape (utf8_text cps)) < fuel)%nat ->
  attr_value fuel 39 (escape (utf8_text cps) ++ 39 :: r) = Some (utf8_text cps, r).
Proof.
  induction 1 as [|cp cps [H G32] F IH]; intros r fuel B.
  - destruct fuel as [|fuel]; [lia|]. reflexivity.
  - destruct fuel as [|fuel]; [lia|]. rewrite escape_text_cons in *. rewrite <- app_assoc.
    rewrite app_length in B. pose proof (escape_utf8_length cp) as L1.
    assert (IH' := IH r fuel ltac:(lia)). clear IH.
    set (R := escape (utf8_text cps) ++ 39 :: r) in *.
    assert (UT : utf8_text (cp :: cps) = utf8 cp ++ utf8_text cps) by reflexivity. rewrite UT.
    destruct (utf8_cons cp) as (c & t & E & L & G).
    rewrite escape_utf8 in *. destruct (cp <? 128) eqn:S.
    + apply N.ltb_lt in S. destruct (L S) as [-> ->].
      destruct (esc_cases cp S) as [(X & A1 & A2 & A3 & A4)|(e & X & EN)].
      * rewrite X in *. cbn [app] in *. cbn [attr_value]. bools.
        pose proof (xchar_utf8 cp R H) as Y. rewrite E in Y. cbn [app] in Y. rewrite Y.
        replace (if blank (List.hd 0 [cp]) then [32] else [cp]) with [cp].
        { rewrite IH', E. reflexivity. }
        cbn [List.hd]. destruct (blank cp) eqn:BL; [|reflexivity].
        unfold blank in BL. rewrite !Bool.orb_true_iff, !N.eqb_eq in BL.
        assert (cp = 32) as -> by lia. reflexivity.
      * rewrite X in *. cbn [app] in *. cbn [attr_value]. bools. rewrite EN, IH', E. reflexivity.
    + apply N.ltb_ge in S. specialize (G S). pose proof (xchar_utf8 cp R H) as Y.
      rewrite E in *. cbn [app] in *. cbn [attr_value]. bools. rewrite Y. cbn [List.hd].
      replace (blank c) with false by (unfold blank; bools; reflexivity).
      rewrite IH'. reflexivity.
Qed.

Lemma attr_list_attrs : forall l, NoDup (map fst l) -> Forall (fun a => name_ok (fst a) /\ line_ok (snd a)) l ->
  forall fin (e : bool) r fuel, fin = (if e then [47; 62] else [62]) -> (length l < fuel)%nat ->
  attr_list fuel (concat (map attr_bytes l) ++ fin ++ r) = Some (l, e, r).
Proof.
  induction l as [|[k v] l IH]; intros ND F fin e r fuel EF B; destruct fuel as [|fuel]; [lia| |lia|].
  - subst fin. cbn [map concat app]. destruct e; reflexivity.
  - inversion F as [|? ? [K V] F']; subst. inversion ND as [|? ? NI ND']; subst. cbn [fst snd] in *.
    cbn [map concat]. unfold attr_bytes at 1. cbn [fst snd].
    replace ((32 :: k ++ [61; 39] ++ escape v ++ [39]) ++ concat (map attr_bytes l))
      with (32 :: k ++ 61 :: 39 :: escape v ++ 39 :: concat (map attr_bytes l))
      by (cbn [app]; rewrite <- !app_assoc; cbn [app]; rewrite <- !app_assoc; reflexivity).
    cbn [app]. rewrite <- app_assoc. cbn [app]. rewrite <- app_assoc. cbn [app].
    set (fin := if e then [47; 62] else [62]) in *.
    set (R := concat (map attr_bytes l) ++ fin ++ r).
    destruct (name_ok_chars k K) as (KS & KF & KN).
    assert (NC : name_char 61 = false) by reflexivity.
    pose proof (read_name_app k (61 :: 39 :: escape v ++ 39 :: R) K NC) as RN.
    assert (SK : skip_ws (32 :: k ++ 61 :: 39 :: escape v ++ 39 :: R) = k ++ 61 :: 39 :: escape v ++ 39 :: R).
    { cbn [skip_ws]. change (blank 32) with true. cbn iota. destruct k as [|c k]; [congruence|]. cbn [app skip_ws].
      cbn [List.hd] in KS. replace (blank c) with false; [reflexivity|]. symmetry.
      unfold name_start in KS. rewrite !Bool.orb_true_iff, !Bool.andb_true_iff, !N.leb_le, !N.eqb_eq in KS.
      unfold blank. rewrite !Bool.orb_false_iff, !N.eqb_neq. lia. }
    cbn [attr_list]. rewrite SK. cbn [List.hd]. change (negb (blank 32)) with false.
    destruct k as [|c k]; [congruence|]. cbn [app]. cbn [app] in RN. cbn [List.hd] in KS.
    unfold name_start in KS. rewrite !Bool.orb_true_iff, !Bool.andb_true_iff, !N.leb_le, !N.eqb_eq in KS.
    bools. rewrite RN.
    cbn [skip_ws]. change (blank 61) with false. cbn iota.
    change (61 =? 61) with true. cbn iota. cbn [skip_ws]. change (blank 39) with false. cbn iota.
    change ((39 =? 39) || (39 =? 34)) with true. cbn iota.
    destruct V as (cps & FV & ->).
    rewrite attr_value_text.
    + unfold R. rewrite (IH ND' F' fin e r fuel) by (try reflexivity; cbn [length] in B; lia).
      replace (existsb (fun '(a, _) => beq a (c :: k)) l) with false; [reflexivity|].
      symmetry. apply Bool.not_true_is_false. intros X. apply existsb_exists in X.
      destruct X as ((a & b) & I & Q). apply beq_true in Q. subst a. apply NI.
      apply in_map_iff. exists (c :: k, b). auto.
    + exact FV.
    + rewrite app_length. cbn [length]. lia.
Qed.
