(** Channels, channel groups, data groups, file history, attachments, hierarchies, events and the
    header are read back as written. *)
From Verif Require Import Base BlockModel BlockSpec BlockProofs BlockProofs2 BlockProofs3 BlockProofs4
  CcModel CcProofs MetaModel MetaSpec MetaProofs MetaProofs2 MetaCc.
Local Open Scope N_scope.

(* ------------------------------------------------------------------ *)
(** ** CN *)

Lemma read_chain_typed : forall {T} t (rd : file -> nat -> res (T * N)) fuel g l xs,
  read_chain (typed t rd) fuel g l = Ok xs ->
  read_chain rd fuel g l = Ok xs /\
  match xs with [] => pos64 l = false | _ => pos64 l = true /\ block_type g (N.to_nat l) = t end.
Proof.
  intros T t rd. induction fuel as [|k IH]; intros g l xs H; cbn [read_chain] in *.
  - destruct (pos64 l); [discriminate|]. inversion H; subst. auto.
  - destruct (pos64 l); [|inversion H; subst; auto]. unfold typed in H at 1.
    destruct (list_eq_dec N.eq_dec (block_type g (N.to_nat l)) t) as [ET|]; [|discriminate].
    destruct (rd g (N.to_nat l)) as [[x n]| |]; try discriminate. cbn [bind] in *.
    destruct (read_chain (typed t rd) k g n) as [ys| |] eqn:EC; try discriminate. cbn [bind] in *.
    inversion H; subst. destruct (IH _ _ _ EC) as [-> _]. cbn [bind]. auto.
Qed.

Lemma chain_map : forall {A B} (inj : A -> B) (wb_ : B -> file -> res (file * nat)) (wa : A -> file -> res (file * nat)),
  (forall a f, wb_ (inj a) f = wa a f) ->
  forall xs prev f, write_chain wb_ prev (map inj xs) f = write_chain wa prev xs f.
Proof.
  intros A B inj wb_ wa H. induction xs as [|x xs IH]; intros prev f; [reflexivity|].
  cbn [map write_chain]. rewrite H. destruct (wa x f) as [[f1 p]| |]; try reflexivity. cbn [bind].
  rewrite IH. reflexivity.
Qed.

Section CnInd.
Context (P : cn -> Prop)
  (H : forall h cx, (forall c, In (CSub c) cx -> P c) -> P (mkCn h cx)).
Fixpoint cn_ind' (c : cn) : P c :=
  match c with
  | mkCn h cx =>
      H h cx ((fix go (l : list comp) : forall c, In (CSub c) l -> P c :=
        match l with
        | [] => fun c X => match X with end
        | x :: r => fun c X =>
            match X with
            | or_introl E =>
                match x as x0 return x0 = CSub c -> P c with
                | CArr a => fun E0 => match E0 in _ = y return match y with CArr _ => True | CSub _ => P c end with eq_refl => Logic.I end
                | CSub c0 => fun E0 => match E0 in _ = y return match y with CArr _ => True | CSub c1 => P c1 end with eq_refl => cn_ind' c0 end
                end E
            | or_intror X' => go r c X'
            end
        end) cx)
  end.
End CnInd.

Lemma writes_more_as : forall {T} (wr : T -> file -> res (file * nat)) (rd : nat -> file -> nat -> res (T * N)) h xs,
  Forall (fun x => exists n, forall fuel, (n <= fuel)%nat -> writes_as wr (rd fuel) x (h x)) xs ->
  exists n, forall fuel, (n <= fuel)%nat -> Forall2 (writes_as wr (rd fuel)) xs (map h xs).
Proof.
  intros T wr rd h xs F. induction F as [|x xs [n Hn] F [m Hm]].
  - exists 0%nat. intros. constructor.
  - exists (max n m). intros fuel L. constructor; [apply Hn; lia|apply Hm; lia].
Qed.

Lemma writes_more : forall {T} (wr : T -> file -> res (file * nat)) (rd : nat -> file -> nat -> res (T * N)) xs,
  Forall (fun x => exists n, forall fuel, (n <= fuel)%nat -> writes wr (rd fuel) x) xs ->
  exists n, forall fuel, (n <= fuel)%nat -> Forall (writes wr (rd fuel)) xs.
Proof.
  intros T wr rd xs F. induction F as [|x xs [n Hn] F [m Hm]].
  - exists 0%nat. intros. constructor.
  - exists (max n m). intros fuel L. constructor; [apply Hn; lia|apply Hm; lia].
Qed.

(** What the reader does with the composition. *)
Definition read_cx (k : nat) (f : file) (l : N) : res (list comp) :=
  if pos64 l then
    let bt := block_type f (N.to_nat l) in
    if list_eq_dec N.eq_dec bt [67; 65] then
      let* 'l := read_chain read_ca k f l in Ok (map CArr l)
    else if list_eq_dec N.eq_dec bt [67; 78] then
      let* 'l := read_chain (read_cn k) k f l in Ok (map CSub l)
    else UB
  else Ok [].

Definition write_comp (x : comp) : file -> res (file * nat) :=
  match x with CArr a => write_ca a | CSub c => write_cn c end.

Lemma emits_arrays : forall arrays k, Forall ca_ok arrays -> (length arrays <= k)%nat ->
  emits (write_chain write_comp None (map CArr arrays)) (read_cx k) (map CArr arrays).
Proof.
  intros arrays k F L f NE.
  assert (FW : Forall (writes write_ca (typed [67; 65] read_ca)) arrays).
  { eapply Forall_impl; [|exact F]. intros a. apply writes_ca. }
  destruct (emits_chain write_ca _ k arrays FW L f NE) as (f' & l & E & G & R).
  exists f', l. split; [rewrite (chain_map CArr write_comp write_ca) by reflexivity; exact E|]. split; auto.
  intros B. destruct (R B) as [U RD]. split; auto. intros g S. specialize (RD g S).
  apply read_chain_typed in RD as [RD C]. unfold read_cx.
  destruct arrays as [|a arrays].
  - rewrite C. reflexivity.
  - destruct C as [C1 C2]. rewrite C1, C2. cbv zeta.
    destruct (list_eq_dec N.eq_dec [67; 65] [67; 65]); [|congruence]. rewrite RD. reflexivity.
Qed.

Definition comp_form (x : comp) : comp := match x with CArr a => CArr a | CSub c => CSub (cn_form c) end.

Lemma emits_members : forall members k,
  Forall2 (writes_as write_cn (typed [67; 78] (read_cn k))) members (map cn_form members) ->
  (length members <= k)%nat ->
  emits (write_chain write_comp None (map CSub members)) (read_cx k) (map comp_form (map CSub members)).
Proof.
  intros members k FW L f NE.
  destruct (emits_chain_as write_cn _ k members _ FW L f NE) as (f' & l & E & G & R).
  exists f', l. split; [rewrite (chain_map CSub write_comp write_cn) by reflexivity; exact E|]. split; auto.
  intros B. destruct (R B) as [U RD]. split; auto. intros g S. specialize (RD g S).
  apply read_chain_typed in RD as [RD C]. unfold read_cx.
  destruct members as [|a members].
  - cbn [map] in C. rewrite C. reflexivity.
  - cbn [map] in C. destruct C as [C1 C2]. rewrite C1, C2. cbv zeta.
    destruct (list_eq_dec N.eq_dec [67; 78] [67; 65]); [discriminate|].
    destruct (list_eq_dec N.eq_dec [67; 78] [67; 78]); [|congruence]. rewrite RD. cbn [bind].
    rewrite !map_map. reflexivity.
Qed.

Lemma triple_u64 : forall x y z, u64_3 (x, y, z) -> Forall u64 [x; y; z].
Proof. intros x y z (A & B & C). repeat constructor; auto. Qed.

(** A channel whose composition is read back is read back. *)
Definition conv_depth (h : cnh) : nat := match n_conv h with Some c => depth c | None => 0%nat end.

Lemma writes_cn_step : forall h cx k, cnh_ok h -> (conv_depth h <= k)%nat ->
  emits (write_chain write_comp None cx) (read_cx k) (map comp_form cx) ->
  writes_as write_cn (typed [67; 78] (read_cn (S k))) (mkCn h cx) (cn_form (mkCn h cx)).
Proof.
  intros h cx k OK DK EX f0 NE.
  destruct OK as ((U1 & U2 & U3 & U4 & U5 & U6 & U7 & U8 & U9) & (V1 & V2 & V3 & V4 & V5 & V6) & T1 & C1 & C2 & S1
    & LA & FA & DX & DX0 & CV).
  assert (ECC : emits (write_cc_opt (n_conv h)) (read_cc_opt k (n_dtype h)) (option_map (conv_form (n_dtype h)) (n_conv h))).
  { apply emits_cc. unfold conv_depth in DK. destruct (n_conv h); auto. }
  destruct (step _ _ _ f0 EX NE) as (f1 & l1 & E1 & G1 & N1 & R1).
  destruct (step _ _ _ f1 (emits_tx _ T1) N1) as (f2 & l2 & E2 & G2 & N2 & R2).
  destruct (step _ _ _ f2 (emits_si _ S1) N2) as (f3 & l3 & E3 & G3 & N3 & R3).
  destruct (step _ _ _ f3 ECC N3) as (fc & l4 & Ec & Gc & Nc & Rc).
  destruct (step _ _ _ fc (emits_md _ C1) Nc) as (f4 & l6 & E4 & G4 & N4 & R4).
  destruct (step _ _ _ f4 (emits_md _ C2) N4) as (f5 & l7 & E5 & G5 & N5 & R5).
  pose proof (grows_trans _ _ _ Gc (grows_trans _ _ _ G4 G5)) as Gc5.
  pose proof (grows_trans _ _ _ G1 (grows_trans _ _ _ G2 (grows_trans _ _ _ G3 Gc5))) as G05.
  assert (W16 : w16 (N.of_nat (length (n_attach h))) = N.of_nat (length (n_attach h))).
  { unfold w16. apply N.mod_small. exact LA. }
  set (dx := has (n_flags h) fDefaultX).
  assert (EDX : dx = N.testbit (n_flags h) 12).
  { unfold dx. change fDefaultX with (2 ^ 12). apply has_testbit. }
  destruct (n_defx h) as [[x y] z] eqn:EX3.
  set (len := N.of_nat (24 + 64 + length (n_attach h) * 8 + (if dx then 24 else 0) + 76)).
  set (tail := n_attach h ++ (if dx then [x; y; z] else [])).
  destruct (wb ty_cn len 0 ([l1; l2; l3; l4; 0; l6; l7] ++ tail) (fields_bytes (cn_fields h)) f0 f5
     ltac:(apply type_ok_lit; discriminate || reflexivity) G05 NE)
    as (f' & b & E & G & P1 & P2 & HZ & HB & EB & LF & R).
  pose proof (grows_length _ _ G05) as L05. pose proof (grows_length _ _ G) as LG.
  pose proof (grows_length _ _ G1) as LG1. pose proof (grows_length _ _ G2) as LG2.
  pose proof (grows_length _ _ G3) as LG3. pose proof (grows_length _ _ G4) as LG4.
  pose proof (grows_length _ _ Gc) as LGc.
  exists f', (b_pos b). split.
  { cbn [write_cn]. cbv zeta. rewrite W16, Nat2N.id.
    change (write_chain (fun x => match x with CArr a => write_ca a | CSub c => write_cn c end) None cx f0)
      with (write_chain write_comp None cx f0).
    rewrite E1. cbn [bind]. rewrite E2. cbn [bind]. rewrite E3. cbn [bind]. rewrite Ec. cbn [bind].
    rewrite E4. cbn [bind]. rewrite E5. cbn [bind]. rewrite Nat.ltb_irrefl. rewrite EX3. fold dx. fold len.
    change ([0; l1; l2; l3; l4; 0; l6; l7] ++ n_attach h ++ (if dx then [x; y; z] else []))
      with (0 :: [l1; l2; l3; l4; 0; l6; l7] ++ tail).
    rewrite E. reflexivity. }
  split; [eapply grows_trans; eauto|]. split; [lia|]. split; [lia|].
  intros B. split; [exact HZ|]. intros g n SB Hn HN.
  assert (B5 : N.of_nat (length f5) < 2 ^ 63) by lia.
  destruct (R1 f5 (grows_trans _ _ _ G2 (grows_trans _ _ _ G3 Gc5)) B5) as [W1 D1].
  destruct (R2 f5 (grows_trans _ _ _ G3 Gc5) B5) as [W2 D2].
  destruct (R3 f5 Gc5 B5) as [W3 D3]. destruct (Rc f5 (grows_trans _ _ _ G4 G5) B5) as [Wc Dc].
  destruct (R4 f5 G5 B5) as [W4 D4]. destruct (R5 f5 (grows_refl _) B5) as [W5 D5].
  destruct (R B) with (g := g) (n := n) as (RH & HF & HT & S5); auto.
  { apply Forall_app. split; [repeat constructor; assumption|]. unfold tail. apply Forall_app. split; auto.
    destruct dx; [|constructor]. apply triple_u64. exact DX. }
  rewrite (typed_at _ 67 78 g (b_pos b) _ _ ltac:(apply plain2; discriminate || reflexivity) HT).
  cbn [read_cn]. rewrite RH. cbn [bind].
  erewrite read_seq_vals; [|exact HF| |reflexivity].
  2:{ unfold cn_fields. fields. rewrite W16. apply field16. exact LA. }
  cbn [bind map snd nth cn_fields].
  set (bb := mkB (b_pos b) ty_cn _ _).
  assert (LK : b_links bb = [n; l1; l2; l3; l4; 0; l6; l7] ++ n_attach h ++ (if dx then [x; y; z] else []))
    by reflexivity.
  change (link bb 2) with l2. change (link bb 1) with l1. change (link bb 3) with l3. change (link bb 4) with l4.
  change (link bb 6) with l6.
  change (link bb 7) with l7. change (link bb 0) with n. clearbody bb.
  rewrite (D2 g (length f0) ltac:(lia) S5). cbn [bind].
  match goal with |- context [bind ?t _] => change t with (read_cx k g l1) end.
  rewrite (D1 g (length f0) ltac:(lia) S5). cbn [bind].
  rewrite (D3 g (length f0) ltac:(lia) S5). cbn [bind].
  rewrite (Dc g (length f0) ltac:(lia) S5). cbn [bind].
  rewrite (D4 g (length f0) ltac:(lia) S5). cbn [bind].
  rewrite (D5 g (length f0) ltac:(lia) S5). cbn [bind].
  rewrite W16, Nat2N.id. fold dx.
  change 8%nat with (length [n; l1; l2; l3; l4; 0; l6; l7]).
  rewrite (links_at_mid bb [n; l1; l2; l3; l4; 0; l6; l7] (n_attach h) _ LK).
  assert (DD : (if dx then triple_at bb (length [n; l1; l2; l3; l4; 0; l6; l7] + length (n_attach h)) else (0, 0, 0))
               = n_defx h).
  { rewrite EX3. destruct dx.
    - rewrite <- app_length. apply (triple_at_mid bb _ x y z []). rewrite LK, <- app_assoc. reflexivity.
    - symmetry. apply DX0. symmetry. exact EDX. }
  rewrite DD. reflexivity.
Qed.

Lemma writes_cn : forall c, cn_ok c ->
  exists n, forall fuel, (n <= fuel)%nat -> writes_as write_cn (typed [67; 78] (read_cn fuel)) c (cn_form c).
Proof.
  induction c as [h cx IH] using cn_ind'. intros OK. inversion OK as [h' arrays HO F EH|h' members HO F EH]; subst.
  - exists (S (max (conv_depth h) (length arrays))). intros fuel L. destruct fuel as [|k]; [lia|].
    apply writes_cn_step; [auto|lia|].
    replace (map comp_form (map CArr arrays)) with (map CArr arrays) by (rewrite map_map; reflexivity).
    apply emits_arrays; auto. lia.
  - assert (FN : Forall (fun c => exists n, forall fuel, (n <= fuel)%nat ->
        writes_as write_cn (typed [67; 78] (read_cn fuel)) c (cn_form c)) members).
    { apply Forall_forall. intros c I. apply IH.
      - apply in_map. exact I.
      - rewrite Forall_forall in F. auto. }
    destruct (writes_more_as write_cn (fun k => typed [67; 78] (read_cn k)) cn_form members FN) as [n Hn].
    exists (S (max (conv_depth h) (max n (length members)))). intros fuel L. destruct fuel as [|k]; [lia|].
    apply writes_cn_step; [auto|lia|]. apply emits_members; [apply Hn; lia|lia].
Qed.

(* ------------------------------------------------------------------ *)
(** ** CG and DG *)

Lemma writes_cg : forall c, cg_ok c ->
  exists n, forall fuel, (n <= fuel)%nat -> writes_as write_cg (read_cg fuel) c (cg_form c).
Proof.
  intros c (U1 & U2 & U3 & U4 & U5 & U6 & T1 & S1 & C1 & F).
  destruct (writes_more_as write_cn read_cn cn_form (g_cns c)) as [n0 HN0].
  { eapply Forall_impl; [|exact F]. intros x OK. destruct (writes_cn x OK) as [m Hm]. exists m.
    intros fuel L. apply (writes_untyped [67; 78]). auto. }
  exists (max n0 (length (g_cns c))). intros fuel LFU f0 NE.
  destruct (step _ _ _ f0 (emits_chain_as _ _ fuel _ _ (HN0 fuel ltac:(lia)) ltac:(lia)) NE) as (f1 & l1 & E1 & G1 & N1 & R1).
  destruct (step _ _ _ f1 (emits_tx _ T1) N1) as (f2 & l2 & E2 & G2 & N2 & R2).
  destruct (step _ _ _ f2 (emits_si _ S1) N2) as (f3 & l3 & E3 & G3 & N3 & R3).
  destruct (step _ _ _ f3 (emits_md _ C1) N3) as (f4 & l5 & E4 & G4 & N4 & R4).
  pose proof (grows_trans _ _ _ G1 (grows_trans _ _ _ G2 (grows_trans _ _ _ G3 G4))) as G04.
  set (rm := has (g_flags c) fRemote).
  set (fl := [(8%nat, g_record c); (8%nat, g_samples c); (2%nat, g_flags c);
                     (2%nat, g_separator c); (4%nat, 0); (4%nat, g_data c); (4%nat, g_inval c)]).
  destruct (wb ty_cg (if rm then 112 else 104) 0 ([l1; l2; l3; 0; l5] ++ (if rm then [0] else []))
     (fields_bytes fl) f0 f4 ltac:(apply type_ok_lit; discriminate || reflexivity) G04 NE)
    as (f' & b & E & G & P1 & P2 & HZ & HB & EB & LF & R).
  pose proof (grows_length _ _ G04) as L04. pose proof (grows_length _ _ G) as LG.
  pose proof (grows_length _ _ G1) as LG1. pose proof (grows_length _ _ G2) as LG2.
  pose proof (grows_length _ _ G3) as LG3.
  exists f', (b_pos b). split.
  { unfold write_cg. rewrite E1. cbn [bind]. rewrite E2. cbn [bind]. rewrite E3. cbn [bind]. rewrite E4. cbn [bind].
    cbv zeta. fold rm. fold fl.
    change ([0; l1; l2; l3; 0; l5] ++ (if rm then [0] else []))
      with (0 :: [l1; l2; l3; 0; l5] ++ (if rm then [0] else [])).
    rewrite E. reflexivity. }
  split; [eapply grows_trans; eauto|]. split; [lia|]. split; [lia|].
  intros B. split; [exact HZ|]. intros g n SB Hn HN.
  assert (B4 : N.of_nat (length f4) < 2 ^ 63) by lia.
  destruct (R1 f4 (grows_trans _ _ _ G2 (grows_trans _ _ _ G3 G4)) B4) as [W1 D1].
  destruct (R2 f4 (grows_trans _ _ _ G3 G4) B4) as [W2 D2].
  destruct (R3 f4 G4 B4) as [W3 D3]. destruct (R4 f4 (grows_refl _) B4) as [W4 D4].
  destruct (R B) with (g := g) (n := n) as (RH & HF & HT & S4); auto.
  { apply Forall_app. split; [repeat constructor; assumption|]. destruct rm; repeat constructor. }
  unfold read_cg. rewrite RH. cbn [bind].
  erewrite read_seq_vals; [|exact HF|unfold fl; fields|reflexivity].
  cbn [bind map snd nth fl].
  set (bb := mkB (b_pos b) ty_cg _ _).
  change (link bb 2) with l2. change (link bb 1) with l1. change (link bb 3) with l3. change (link bb 5) with l5.
  change (link bb 0) with n. clearbody bb.
  rewrite (D2 g (length f0) ltac:(lia) S4). cbn [bind].
  rewrite (D3 g (length f0) ltac:(lia) S4). cbn [bind].
  rewrite (D4 g (length f0) ltac:(lia) S4). cbn [bind].
  rewrite (D1 g (length f0) ltac:(lia) S4). cbn [bind]. reflexivity.
Qed.

Lemma writes_dg : forall d, dg_ok d ->
  exists n, forall fuel, (n <= fuel)%nat -> writes_as write_dg (read_dg fuel) d (dg_form d).
Proof.
  intros d (U1 & U2 & C1 & F).
  destruct (writes_more_as write_cg read_cg cg_form (d_cgs d)) as [n0 HN0].
  { eapply Forall_impl; [|exact F]. intros x OK. apply writes_cg. exact OK. }
  exists (max n0 (length (d_cgs d))). intros fuel LFU f0 NE.
  destruct (step _ _ _ f0 (emits_chain_as _ _ fuel _ _ (HN0 fuel ltac:(lia)) ltac:(lia)) NE) as (f1 & l1 & E1 & G1 & N1 & R1).
  destruct (step _ _ _ f1 (emits_md _ C1) N1) as (f2 & l3 & E2 & G2 & N2 & R2).
  pose proof (grows_trans _ _ _ G1 G2) as G02.
  set (fl := [(1%nat, d_idsize d); (7%nat, 0)]).
  destruct (wb ty_dg 64 0 [l1; d_link d; l3] (fields_bytes fl) f0 f2
     ltac:(apply type_ok_lit; discriminate || reflexivity) G02 NE)
    as (f' & b & E & G & P1 & P2 & HZ & HB & EB & LF & R).
  pose proof (grows_length _ _ G02) as L02. pose proof (grows_length _ _ G) as LG.
  pose proof (grows_length _ _ G1) as LG1.
  exists f', (b_pos b). split.
  { unfold write_dg. rewrite E1. cbn [bind]. rewrite E2. cbn [bind]. fold fl. rewrite E. reflexivity. }
  split; [eapply grows_trans; eauto|]. split; [lia|]. split; [lia|].
  intros B. split; [exact HZ|]. intros g n SB Hn HN.
  assert (B2 : N.of_nat (length f2) < 2 ^ 63) by lia.
  destruct (R1 f2 G2 B2) as [W1 D1]. destruct (R2 f2 (grows_refl _) B2) as [W2 D2].
  destruct (R B) with (g := g) (n := n) as (RH & HF & HT & S2); auto.
  unfold read_dg. rewrite RH. cbn [bind].
  erewrite read_seq_vals; [|exact HF|unfold fl; fields|reflexivity].
  cbn [bind map snd nth fl link b_links].
  rewrite (D2 g (length f0) ltac:(lia) S2). cbn [bind].
  rewrite (D1 g (length f0) ltac:(lia) S2). cbn [bind]. reflexivity.
Qed.

(* ------------------------------------------------------------------ *)
(** ** FH *)

Lemma holds_body : forall f pos ty size ls body, holds f pos (header_bytes ty size ls ++ body) ->
  holds f pos (header_bytes ty size ls) /\ holds f (pos + (24 + 8 * length ls)) body.
Proof.
  intros f pos ty size ls body H. apply holds_app in H as [H1 H2]. rewrite header_bytes_length in H2. auto.
Qed.

(** Storing a link in a block of the file. *)
Lemma update_in : forall b i l f body, (0 < b_pos b)%nat -> (i < length (b_links b))%nat ->
  holds f (b_pos b) (header_bytes (b_type b) (b_len b) (b_links b) ++ body) ->
  exists f', update_link4 b i l f = Ok (f', mkB (b_pos b) (b_type b) (b_len b) (set_nth (b_links b) i l)) /\
    length f' = length f /\
    (forall j, (j < b_pos b \/ b_pos b + (24 + 8 * length (b_links b)) <= j)%nat -> nth_error f' j = nth_error f j) /\
    holds f' (b_pos b) (header_bytes (b_type b) (b_len b) (set_nth (b_links b) i l) ++ body).
Proof.
  intros b i l f body P L H. apply holds_body in H as [H1 H2].
  destruct (update_link4_spec b i l f P L H1) as (f' & E & SO & H').
  exists f'. split; auto. destruct SO as [LE SO]. split; auto.
  split; [intros j Hj; apply SO; lia|].
  apply holds_app. split; auto. rewrite header_bytes_length.
  replace (length (set_nth (b_links b) i l)) with (length (b_links b))
    by (symmetry; apply set_nth_length).
  eapply holds_frame; [split; [exact LE|exact SO]|exact H2|lia].
Qed.

Lemma grows_prefix : forall f g, (length f <= length g)%nat ->
  (forall i, (i < length f)%nat -> nth_error g i = nth_error f i) -> grows f g.
Proof.
  intros f g L H. exists (skipn (length f) g). rewrite <- (firstn_skipn (length f) g) at 1. f_equal.
  apply nth_error_ext_N.
  - rewrite firstn_length. lia.
  - intros i Hi. rewrite firstn_length in Hi. rewrite nth_error_firstn' by lia. apply H. lia.
Qed.

Lemma grows_nth : forall f g i, grows f g -> (i < length f)%nat -> nth_error g i = nth_error f i.
Proof. intros f g i [x ->] H. apply nth_error_app1. auto. Qed.

Lemma writes_fh : forall h, fh_ok h -> writes write_fh read_fh h.
Proof.
  intros h ((U1 & U2 & U3 & U4) & C1) f0 NE.
  set (fl := stamp_fields (f_time h) ++ [(3%nat, 0)]).
  destruct (wb ty_fh 56 0 [0] (fields_bytes fl) f0 f0
     ltac:(apply type_ok_lit; discriminate || reflexivity) (grows_refl _) NE)
    as (f1 & b & E & G & P1 & P2 & HZ & HB & EB & LF & _).
  pose proof (grows_length _ _ G) as LG.
  destruct (step _ _ _ f1 (emits_md _ C1) ltac:(lia)) as (f2 & l1 & E2 & G2 & N2 & R2).
  pose proof (grows_length _ _ G2) as LG2.
  assert (LFL : length (fields_bytes fl) = 16%nat) by reflexivity.
  assert (HB2 : holds f2 (b_pos b) (header_bytes (b_type b) (b_len b) (b_links b) ++ fields_bytes fl)).
  { rewrite EB. cbn [b_type b_len b_links]. destruct G2 as [x ->]. apply holds_ext. exact HB. }
  assert (BL : b_links b = [0; 0]) by (rewrite EB; reflexivity).
  destruct (update_in b 1 l1 f2 (fields_bytes fl) ltac:(lia) ltac:(rewrite BL; cbn; lia) HB2)
    as (f3 & E3 & L3 & SO & HB3).
  rewrite BL in SO, HB3, E3. cbn [length set_nth] in SO, HB3, E3.
  exists f3, (b_pos b). split.
  { unfold write_fh. fold fl. rewrite E. cbn [bind]. rewrite E2. cbn [bind]. rewrite E3. reflexivity. }
  split.
  { apply grows_prefix; [lia|]. intros i Hi. rewrite SO by lia. rewrite (grows_nth f1 f2 i G2) by lia.
    apply (grows_nth f0 f1 i G). lia. }
  split; [lia|]. split; [lia|]. intros B.
  destruct (R2 f2 (grows_refl _) ltac:(lia)) as [W2 D2].
  split; [apply header_first_link in HB3; exact HB3|]. intros g n SB Hn HN.
  cbn [length] in LF. rewrite LFL in LF.
  assert (HG : holds g (b_pos b) (header_bytes (b_type b) (b_len b) [n; l1] ++ fields_bytes fl)).
  { eapply block_hole; [exact HB3|exact SB|lia|rewrite LFL; cbn [length]; lia|exact HN]. }
  assert (TY : b_type b = ty_fh) by (rewrite EB; reflexivity).
  assert (LE : b_len b = 56) by (rewrite EB; cbn [b_len length]; rewrite LFL; reflexivity).
  rewrite TY, LE in HG.
  destruct (block_read g (b_pos b) ty_fh 56 [n; l1] (fields_bytes fl)
     ltac:(apply type_ok_lit; discriminate || reflexivity) HG) as [RH HF];
    [reflexivity|reflexivity|repeat constructor; assumption|].
  unfold read_fh. rewrite RH. cbn [bind].
  assert (HF4 : holds g (b_pos b + (24 + 8 * length [n; l1])) (fields_bytes (stamp_fields (f_time h)))).
  { unfold fl in HF. rewrite fields_bytes_app in HF. apply holds_app in HF. apply HF. }
  erewrite read_seq_vals; [|exact HF4|unfold stamp_fields; fields|reflexivity].
  cbn [bind map snd nth stamp_fields link b_links].
  rewrite (D2 g (length f1) ltac:(lia)).
  - cbn [bind]. clear -h. destruct h as [[? ? ? ?] ?]. reflexivity.
  - intros i Hi. rewrite SB by lia. apply SO. lia.
Qed.

(* ------------------------------------------------------------------ *)
(** ** AT, CH, EV *)

Lemma slice_holds : forall f p bs n, holds f p bs -> n = length bs -> slice p n f = bs.
Proof. intros f p bs n H ->. apply holds_slice in H. apply H. Qed.

Lemma writes_at : forall a, at_ok a -> writes write_at read_at a.
Proof.
  intros a (U1 & U2 & M & U3 & T1 & T2 & C1) f0 NE.
  destruct (step _ _ _ f0 (emits_tx _ T1) NE) as (f1 & l1 & E1 & G1 & N1 & R1).
  destruct (step _ _ _ f1 (emits_tx _ T2) N1) as (f2 & l2 & E2 & G2 & N2 & R2).
  destruct (step _ _ _ f2 (emits_md _ C1) N2) as (f3 & l3 & E3 & G3 & N3 & R3).
  pose proof (grows_trans _ _ _ G1 (grows_trans _ _ _ G2 G3)) as G03.
  set (fa := [(2%nat, x_flags a); (2%nat, x_creator a); (4%nat, 0)]).
  set (fb := [(8%nat, x_size a); (8%nat, N.of_nat (length (x_data a)))]).
  assert (LA : length (fields_bytes fa) = 8%nat) by reflexivity.
  assert (LB : length (fields_bytes fb) = 16%nat) by reflexivity.
  destruct (wb ty_at (96 + N.of_nat (length (x_data a))) 0 [l1; l2; l3]
     (fields_bytes fa ++ x_md5 a ++ fields_bytes fb ++ x_data a) f0 f3
     ltac:(apply type_ok_lit; discriminate || reflexivity) G03 NE)
    as (f' & b & E & G & P1 & P2 & HZ & HB & EB & LF & R).
  pose proof (grows_length _ _ G03) as L03. pose proof (grows_length _ _ G) as LG.
  pose proof (grows_length _ _ G1) as LG1. pose proof (grows_length _ _ G2) as LG2.
  exists f', (b_pos b). split.
  { unfold write_at. cbv zeta. rewrite E1. cbn [bind]. rewrite E2. cbn [bind]. rewrite E3. cbn [bind].
    rewrite M, Nat.eqb_refl. fold fa. fold fb. rewrite E. reflexivity. }
  split; [eapply grows_trans; eauto|]. split; [lia|]. split; [lia|].
  intros B. split; [exact HZ|]. intros g n SB Hn HN.
  assert (B3 : N.of_nat (length f3) < 2 ^ 63) by lia.
  destruct (R1 f3 (grows_trans _ _ _ G2 G3) B3) as [W1 D1].
  destruct (R2 f3 G3 B3) as [W2 D2]. destruct (R3 f3 (grows_refl _) B3) as [W3 D3].
  assert (BD : u64 (N.of_nat (length (x_data a)))).
  { unfold u64. rewrite LF, !app_length in B. lia. }
  assert (FL3 : Forall u64 [l1; l2; l3]) by (repeat constructor; assumption).
  destruct (R B FL3 g n SB Hn HN) as (RH & HF & HT & S3).
  unfold read_at. rewrite RH. cbn [bind]. set (q := (b_pos b + (32 + 8 * length [l1; l2; l3]))%nat) in *.
  clearbody q. apply holds_app in HF as [H1 HF]. apply holds_app in HF as [H2 HF]. apply holds_app in HF as [H3 H4].
  rewrite LA in H2, H3, H4. rewrite M in H3, H4. rewrite LB in H4.
  rewrite (read_seq_vals [2; 2; 4]%nat fa g q H1); [|unfold fa; fields|reflexivity].
  cbn [bind]. change (list_sum [2; 2; 4]%nat) with 8%nat.
  rewrite (slice_holds g (q + 8) (x_md5 a) 16 H2 (eq_sym M)). rewrite M. change (16 <? 16)%nat with false. cbv iota.
  rewrite (read_seq_vals [8; 8]%nat fb g _ H3); [|unfold fb; fields|reflexivity].
  cbn [bind]. change (list_sum [8; 8]%nat) with 16%nat. cbn [link b_links nth].
  rewrite (D1 g (length f0) ltac:(lia) S3). cbn [bind].
  rewrite (D2 g (length f0) ltac:(lia) S3). cbn [bind].
  rewrite (D3 g (length f0) ltac:(lia) S3). cbn [bind].
  cbn [fb map snd nth fa]. rewrite Nat2N.id. rewrite (slice_holds _ _ _ _ H4 eq_refl), Nat.ltb_irrefl.
  clear -a. destruct a. reflexivity.
Qed.

Section ChInd.
Context (P : ch -> Prop)
  (H : forall name type md els subs, (forall c, In c subs -> P c) -> P (mkCh name type md els subs)).
Fixpoint ch_ind' (c : ch) : P c :=
  match c with
  | mkCh name type md els subs =>
      H name type md els subs ((fix go (l : list ch) : forall c, In c l -> P c :=
        match l with
        | [] => fun c X => match X with end
        | x :: r => fun c X =>
            match X with
            | or_introl E => match E in _ = y return P y with eq_refl => ch_ind' x end
            | or_intror X' => go r c X'
            end
        end) subs)
  end.
End ChInd.

Lemma writes_ch : forall c, ch_ok c ->
  exists n, forall fuel, (n <= fuel)%nat -> writes write_ch (read_ch fuel) c.
Proof.
  induction c as [name type md els subs IH] using ch_ind'. intros OK.
  inversion OK as [n' t' m' s' T1 U1 C1 F EH]; subst.
  destruct (writes_more write_ch read_ch subs) as [n0 HN0].
  { apply Forall_forall. intros c I. apply IH; auto. rewrite Forall_forall in F. auto. }
  clear IH F OK.
  exists (S (max n0 (length subs))). intros fuel LFU f0 NE. destruct fuel as [|k]; [lia|].
  destruct (step _ _ _ f0 (emits_tx _ T1) NE) as (f1 & l2 & E1 & G1 & N1 & R1).
  destruct (step _ _ _ f1 (emits_md _ C1) N1) as (f2 & l3 & E2 & G2 & N2 & R2).
  destruct (step _ _ _ f2 (emits_chain _ _ k _ (HN0 k ltac:(lia)) ltac:(lia)) N2) as (f3 & l1 & E3 & G3 & N3 & R3).
  pose proof (grows_trans _ _ _ G1 (grows_trans _ _ _ G2 G3)) as G03.
  set (fl := [(4%nat, 0); (1%nat, type); (3%nat, 0)]).
  destruct (wb ty_ch (w64 (24 + (4 + 0 * 3) * 8 + 12)) 0 [l1; l2; l3] (fields_bytes fl) f0 f3
     ltac:(apply type_ok_lit; discriminate || reflexivity) G03 NE)
    as (f' & b & E & G & P1 & P2 & HZ & HB & EB & LF & R).
  pose proof (grows_length _ _ G03) as L03. pose proof (grows_length _ _ G) as LG.
  pose proof (grows_length _ _ G1) as LG1. pose proof (grows_length _ _ G2) as LG2.
  exists f', (b_pos b). split.
  { cbn [write_ch length]. cbv zeta. rewrite E1. cbn [bind]. rewrite E2. cbn [bind]. rewrite E3. cbn [bind].
    change (N.of_nat 0) with 0. fold fl. change ([0; l1; l2; l3] ++ flat3 []) with [0; l1; l2; l3].
    rewrite E. reflexivity. }
  split; [eapply grows_trans; eauto|]. split; [lia|]. split; [lia|].
  intros B. split; [exact HZ|]. intros g n SB Hn HN.
  assert (B3 : N.of_nat (length f3) < 2 ^ 63) by lia.
  destruct (R1 f3 (grows_trans _ _ _ G2 G3) B3) as [W1 D1].
  destruct (R2 f3 G3 B3) as [W2 D2]. destruct (R3 f3 (grows_refl _) B3) as [W3 D3].
  assert (FL3 : Forall u64 [l1; l2; l3]) by (repeat constructor; assumption).
  destruct (R B FL3 g n SB Hn HN) as (RH & HF & HT & S3).
  cbn [read_ch]. rewrite RH. cbn [bind].
  erewrite read_seq_vals; [|exact HF|unfold fl; fields|reflexivity].
  cbn [bind map snd nth fl link b_links].
  rewrite (D1 g (length f0) ltac:(lia) S3). cbn [bind].
  rewrite (D2 g (length f0) ltac:(lia) S3). cbn [bind].
  rewrite (D3 g (length f0) ltac:(lia) S3). cbn [bind]. reflexivity.
Qed.

Lemma filter_all : forall {A} (p : A -> bool) l, Forall (fun x => p x = true) l -> filter p l = l.
Proof. intros A p l F. induction F as [|x l E F IH]; [reflexivity|]. cbn [filter]. rewrite E, IH. reflexivity. Qed.

Lemma among_mid : forall b pre xs post, b_links b = pre ++ xs ++ post ->
  map (link b) (filter (fun j => (j <? length (b_links b))%nat) (seq (length pre) (length xs))) = xs.
Proof.
  intros b pre xs post E. rewrite filter_all.
  - rewrite <- (links_at_mid b pre xs post E) at 2. unfold links_at.
    assert (X : forall n s, map (link b) (seq (length pre + s) n) = map (fun k => link b (length pre + k)) (seq s n)).
    { induction n as [|n IH]; intros s; [reflexivity|]. cbn [seq map].
      rewrite <- (IH (S s)), <- plus_n_Sm. reflexivity. }
    rewrite <- (X (length xs) 0%nat), Nat.add_0_r. reflexivity.
  - apply Forall_forall. intros j I. apply in_seq in I. apply Nat.ltb_lt. rewrite E, !app_length. lia.
Qed.

Lemma lor_bit1 : forall n, N.testbit n 1 = true -> N.lor n 2 = n.
Proof.
  intros n H. apply N.bits_inj. intros j. rewrite N.lor_spec. change 2 with (2 ^ 1).
  destruct (N.eq_dec j 1) as [->|NE]; [rewrite H; reflexivity|].
  rewrite N.pow2_bits_false by auto. apply orb_false_r.
Qed.

Lemma writes_ev : forall e, ev_ok e -> writes write_ev read_ev e.
Proof.
  intros e ((U1 & U2 & U3 & U4 & U5 & U6 & U7 & U8) & V1 & V2 & LS & LA & FS & FA & T1 & T2 & C1 & GF) f0 NE.
  assert (W32 : w32 (N.of_nat (length (e_scope e))) = N.of_nat (length (e_scope e))).
  { unfold w32. apply N.mod_small. exact LS. }
  assert (W16 : w16 (N.of_nat (length (e_attach e))) = N.of_nat (length (e_attach e))).
  { unfold w16. apply N.mod_small. exact LA. }
  destruct (step _ _ _ f0 (emits_tx _ T1) NE) as (f1 & l3 & E1 & G1 & N1 & R1).
  destruct (step _ _ _ f1 (emits_tx _ T2) N1) as (f2 & lg & E2 & G2 & N2 & R2).
  destruct (step _ _ _ f2 (emits_md _ C1) N2) as (f3 & l4 & E3 & G3 & N3 & R3).
  pose proof (grows_trans _ _ _ G1 (grows_trans _ _ _ G2 G3)) as G03.
  set (group := match e_group e with [] => false | _ => true end).
  assert (FLG : (if group then N.lor (e_flags e) 2 else e_flags e) = e_flags e).
  { unfold group. destruct (e_group e); [reflexivity|]. apply lor_bit1. apply GF. discriminate. }
  set (fl := [(1%nat, e_type e); (1%nat, e_sync e); (1%nat, e_range e); (1%nat, e_cause e);
              (1%nat, e_flags e); (3%nat, 0); (4%nat, N.of_nat (length (e_scope e)));
              (2%nat, N.of_nat (length (e_attach e)));
              (2%nat, e_creator e); (8%nat, e_base e); (8%nat, e_factor e)]).
  set (tail := e_scope e ++ e_attach e ++ (if group then [lg] else [])).
  destruct (wb ty_ev (24 + (5 + N.of_nat (length (e_scope e)) + N.of_nat (length (e_attach e))) * 8 + 32)
     0 ([e_parent e; e_begin e; l3; l4] ++ tail) (fields_bytes fl) f0 f3
     ltac:(apply type_ok_lit; discriminate || reflexivity) G03 NE)
    as (f' & b & E & G & P1 & P2 & HZ & HB & EB & LF & R).
  pose proof (grows_length _ _ G03) as L03. pose proof (grows_length _ _ G) as LG.
  pose proof (grows_length _ _ G1) as LG1. pose proof (grows_length _ _ G2) as LG2.
  exists f', (b_pos b). split.
  { unfold write_ev. cbv zeta. rewrite W32, W16, !Nat2N.id, !Nat.ltb_irrefl. cbn [orb]. fold group.
    rewrite FLG. rewrite E1. cbn [bind]. rewrite E2. cbn [bind]. rewrite E3. cbn [bind]. fold fl.
    change ([0; e_parent e; e_begin e; l3; l4] ++ e_scope e ++ e_attach e ++ (if group then [lg] else []))
      with (0 :: [e_parent e; e_begin e; l3; l4] ++ tail).
    rewrite E. reflexivity. }
  split; [eapply grows_trans; eauto|]. split; [lia|]. split; [lia|].
  intros B. split; [exact HZ|]. intros g n SB Hn HN.
  assert (B3 : N.of_nat (length f3) < 2 ^ 63) by lia.
  destruct (R1 f3 (grows_trans _ _ _ G2 G3) B3) as [W1 D1].
  destruct (R2 f3 G3 B3) as [W2 D2]. destruct (R3 f3 (grows_refl _) B3) as [W3 D3].
  destruct (R B) with (g := g) (n := n) as (RH & HF & HT & S3); auto.
  { apply Forall_app. split; [repeat constructor; assumption|]. unfold tail.
    apply Forall_app. split; auto. apply Forall_app. split; auto. destruct group; repeat constructor; assumption. }
  unfold read_ev. rewrite RH. cbn [bind].
  erewrite read_seq_vals; [|exact HF|unfold fl; fields|reflexivity].
  cbn [bind map snd nth fl].
  set (bb := mkB (b_pos b) ty_ev _ _).
  assert (LK : b_links bb = [n; e_parent e; e_begin e; l3; l4] ++ e_scope e ++ e_attach e ++ (if group then [lg] else []))
    by reflexivity.
  change (link bb 3) with l3. change (link bb 4) with l4. change (link bb 1) with (e_parent e).
  change (link bb 2) with (e_begin e). change (link bb 0) with n. clearbody bb.
  rewrite (D1 g (length f0) ltac:(lia) S3). cbn [bind]. rewrite !Nat2N.id.
  assert (GR : (if (5 + length (e_scope e) + length (e_attach e) <? length (b_links bb))%nat
                then read_tx g (link bb (5 + length (e_scope e) + length (e_attach e))) else Ok []) = Ok (e_group e)).
  { unfold group in LK, R2. rewrite LK. rewrite !app_length. cbn [length].
    destruct (e_group e) as [|c r] eqn:EG; cbn [length].
    - replace (_ <? _)%nat with false by (symmetry; apply Nat.ltb_ge; lia). reflexivity.
    - replace (_ <? _)%nat with true by (symmetry; apply Nat.ltb_lt; lia).
      replace (link bb (5 + length (e_scope e) + length (e_attach e))) with lg.
      + apply (D2 g (length f0) ltac:(lia) S3).
      + unfold link. rewrite LK. rewrite app_nth2 by (cbn [length]; lia). cbn [length].
        rewrite app_nth2 by lia. rewrite app_nth2 by lia.
        replace (5 + length (e_scope e) + length (e_attach e) - 5 - length (e_scope e) - length (e_attach e))%nat
          with 0%nat by lia. reflexivity. }
  rewrite GR. cbn [bind]. rewrite (D3 g (length f0) ltac:(lia) S3). cbn [bind].
  change 5%nat with (length [n; e_parent e; e_begin e; l3; l4]).
  rewrite (among_mid bb _ (e_scope e) _ LK).
  rewrite <- app_length. rewrite (among_mid bb ([n; e_parent e; e_begin e; l3; l4] ++ e_scope e) (e_attach e)
    (if group then [lg] else [])) by (rewrite LK, <- app_assoc; reflexivity).
  clear -e. destruct e. reflexivity.
Qed.

(* ------------------------------------------------------------------ *)
(** ** HD *)

(** A list or comment written after the block, and its link stored in the block. *)
Lemma hd_step : forall {A} wr rd (a : A) pos ty size ls i f body lo,
  emits wr rd a -> lo = (pos + (24 + 8 * length ls + length body))%nat -> (lo <= length f)%nat ->
  (0 < pos)%nat -> (i < length ls)%nat ->
  holds f pos (header_bytes ty size ls ++ body) ->
  exists f1 l f2, wr f = Ok (f1, l) /\
    update_link4 (mkB pos ty size ls) i l f1 = Ok (f2, mkB pos ty size (set_nth ls i l)) /\
    (length f <= length f2)%nat /\
    (forall j, (j < pos)%nat -> nth_error f2 j = nth_error f j) /\
    same_in f f2 lo (length f) /\
    holds f2 pos (header_bytes ty size (set_nth ls i l) ++ body) /\
    (N.of_nat (length f2) < 2 ^ 63 -> u64 l /\
     forall g, same_in f2 g lo (length f2) -> rd g l = Ok a).
Proof.
  intros A wr rd a pos ty size ls i f body lo E LO LF P I H.
  destruct (step _ _ _ f E ltac:(lia)) as (f1 & l & W & G & N1 & R).
  pose proof (grows_length _ _ G) as LG.
  assert (H1 : holds f1 pos (header_bytes ty size ls ++ body)).
  { destruct G as [x ->]. apply holds_ext. exact H. }
  destruct (update_in (mkB pos ty size ls) i l f1 body P I H1) as (f2 & UP & L2 & SO & H2).
  cbn [b_pos b_type b_len b_links] in UP, SO, H2.
  exists f1, l, f2. split; [exact W|]. split; [exact UP|]. split; [lia|].
  split.
  { intros j Hj. rewrite SO by lia. apply (grows_nth f f1 j G). lia. }
  split.
  { intros j Hj. rewrite SO by lia. apply (grows_nth f f1 j G). lia. }
  split; [exact H2|]. intros B. destruct (R f1 (grows_refl _) ltac:(lia)) as [U D].
  split; [exact U|]. intros g S. apply (D g lo ltac:(lia)). intros j Hj. rewrite S by lia. apply SO. lia.
Qed.

Lemma stored_hd : forall h, hd_ok h -> exists enough, forall fuel, (enough <= fuel)%nat ->
  forall f, (0 < length f)%nat -> exists f' b, write_hd h f = Ok (f', b) /\ grows f f' /\
    (length f <= b_pos b)%nat /\ (b_pos b = (length f + pad8 (length f))%nat) /\
    (N.of_nat (length f') < 2 ^ 63 ->
     forall g, same_in f' g (length f) (length f') -> read_hd fuel g (b_pos b) = Ok (hd_form h)).
Proof.
  intros h ((ST & U1 & U2 & U3 & U4) & C1 & F1 & F2 & F3 & F4 & F5). destruct ST as (T1 & T2 & T3 & T4).
  assert (W1 : Forall (writes write_fh read_fh) (h_fhs h)) by (eapply Forall_impl; [|exact F1]; intros x; apply writes_fh).
  assert (W2 : Forall (writes write_at read_at) (h_ats h)) by (eapply Forall_impl; [|exact F2]; intros x; apply writes_at).
  assert (W4 : Forall (writes write_ev read_ev) (h_evs h)) by (eapply Forall_impl; [|exact F4]; intros x; apply writes_ev).
  destruct (writes_more write_ch read_ch (h_chs h)) as [n3 W3].
  { eapply Forall_impl; [|exact F3]. intros x. apply writes_ch. }
  destruct (writes_more_as write_dg read_dg dg_form (h_dgs h)) as [n5 W5].
  { eapply Forall_impl; [|exact F5]. intros x. apply writes_dg. }
  exists (n3 + n5 + length (h_fhs h) + length (h_ats h) + length (h_chs h) + length (h_evs h) + length (h_dgs h))%nat.
  intros fuel LFU f0 NE.
  specialize (W3 fuel ltac:(lia)). specialize (W5 fuel ltac:(lia)).
  set (fl := hd_fields h). assert (LFL : length (fields_bytes fl) = 32%nat) by reflexivity.
  destruct (wb ty_hd 104 0 [0; 0; 0; 0; 0] (fields_bytes fl) f0 f0
     ltac:(apply type_ok_lit; discriminate || reflexivity) (grows_refl _) NE)
    as (g0 & b & E & G & P1 & P2 & HZ & HB & EB & LF & _).
  cbn [length] in LF, HB, EB. rewrite LFL in LF, HB, EB.
  change (N.of_nat (32 + 8 * 5 + 32)) with 104 in HB, EB.
  assert (PB : b_pos b = (length f0 + pad8 (length f0))%nat).
  { rewrite (write_block4_spec ty_hd 104 [0; 0; 0; 0; 0; 0] (fields_bytes fl) f0 NE) in E. inversion E. reflexivity. }
  set (pos := b_pos b) in *. clearbody pos.
  set (lo := (pos + 104)%nat). pose proof (grows_length _ _ G) as LG.
  destruct (hd_step _ _ _ pos ty_hd 104 [0; 0; 0; 0; 0; 0] 1 g0 (fields_bytes fl) lo
    (emits_chain _ _ fuel _ W1 ltac:(lia)) ltac:(rewrite LFL; unfold lo; cbn [length]; lia) ltac:(lia) ltac:(lia) ltac:(cbn [length]; lia) HB)
    as (g1' & l1 & g1 & A1 & B1 & L1 & O1 & S1 & H1 & R1).
  cbn [set_nth] in B1, H1.
  destruct (hd_step _ _ _ pos ty_hd 104 [0; l1; 0; 0; 0; 0] 5 g1 (fields_bytes fl) lo
    (emits_md _ C1) ltac:(rewrite LFL; unfold lo; cbn [length]; lia) ltac:(lia) ltac:(lia) ltac:(cbn [length]; lia) H1)
    as (g2' & l5 & g2 & A2 & B2 & L2 & O2 & S2 & H2 & R2).
  cbn [set_nth] in B2, H2.
  destruct (hd_step _ _ _ pos ty_hd 104 [0; l1; 0; 0; 0; l5] 3 g2 (fields_bytes fl) lo
    (emits_chain _ _ fuel _ W2 ltac:(lia)) ltac:(rewrite LFL; unfold lo; cbn [length]; lia) ltac:(lia) ltac:(lia) ltac:(cbn [length]; lia) H2)
    as (g3' & l3 & g3 & A3 & B3 & L3 & O3 & S3 & H3 & R3).
  cbn [set_nth] in B3, H3.
  destruct (hd_step _ _ _ pos ty_hd 104 [0; l1; 0; l3; 0; l5] 2 g3 (fields_bytes fl) lo
    (emits_chain _ _ fuel _ W3 ltac:(lia)) ltac:(rewrite LFL; unfold lo; cbn [length]; lia) ltac:(lia) ltac:(lia) ltac:(cbn [length]; lia) H3)
    as (g4' & l2 & g4 & A4 & B4 & L4 & O4 & S4 & H4 & R4).
  cbn [set_nth] in B4, H4.
  destruct (hd_step _ _ _ pos ty_hd 104 [0; l1; l2; l3; 0; l5] 4 g4 (fields_bytes fl) lo
    (emits_chain _ _ fuel _ W4 ltac:(lia)) ltac:(rewrite LFL; unfold lo; cbn [length]; lia) ltac:(lia) ltac:(lia) ltac:(cbn [length]; lia) H4)
    as (g5' & l4 & g5 & A5 & B5 & L5 & O5 & S5 & H5 & R5).
  cbn [set_nth] in B5, H5.
  destruct (hd_step _ _ _ pos ty_hd 104 [0; l1; l2; l3; l4; l5] 0 g5 (fields_bytes fl) lo
    (emits_chain_as _ _ fuel _ _ W5 ltac:(lia)) ltac:(rewrite LFL; unfold lo; cbn [length]; lia) ltac:(lia) ltac:(lia) ltac:(cbn [length]; lia) H5)
    as (g6' & l0 & g6 & A6 & B6 & L6 & O6 & S6 & H6 & R6).
  cbn [set_nth] in B6, H6.
  exists g6, (mkB pos ty_hd 104 [l0; l1; l2; l3; l4; l5]). split.
  { unfold write_hd, write_hd_head. fold fl. rewrite E. cbn [bind]. rewrite EB.
    rewrite A1. cbn [bind]. rewrite B1. cbn [bind]. rewrite A2. cbn [bind]. rewrite B2. cbn [bind].
    rewrite A3. cbn [bind]. rewrite B3. cbn [bind]. rewrite A4. cbn [bind]. rewrite B4. cbn [bind].
    rewrite A5. cbn [bind]. rewrite B5. cbn [bind]. rewrite A6. cbn [bind]. exact B6. }
  split.
  { apply grows_prefix; [lia|]. intros i Hi. rewrite O6, O5, O4, O3, O2, O1 by lia.
    apply (grows_nth f0 g0 i G). lia. }
  cbn [b_pos]. split; [lia|]. split; [exact PB|].
  intros B g GG.
  destruct (R1 ltac:(lia)) as [V1 D1]. destruct (R2 ltac:(lia)) as [V2 D2]. destruct (R3 ltac:(lia)) as [V3 D3].
  destruct (R4 ltac:(lia)) as [V4 D4]. destruct (R5 ltac:(lia)) as [V5 D5]. destruct (R6 B) as [V6 D6].
  assert (HG : holds g pos (header_bytes ty_hd 104 [l0; l1; l2; l3; l4; l5] ++ fields_bytes fl)).
  { eapply same_in_holds; [exact GG|exact H6|lia| |].
    - destruct H6 as [H6 _]. exact H6.
    - intros X. apply (f_equal (@length N)) in X. rewrite app_length, LFL in X. cbn [length] in X. lia. }
  destruct (block_read g pos ty_hd 104 [l0; l1; l2; l3; l4; l5] (fields_bytes fl)
     ltac:(apply type_ok_lit; discriminate || reflexivity) HG) as [RH HF];
    [reflexivity|reflexivity|repeat constructor; assumption|].
  unfold read_hd. rewrite RH. cbn [bind].
  erewrite read_seq_vals; [|exact HF|unfold fl, hd_fields, stamp_fields; cbn [app]; fields|reflexivity].
  cbn [bind map snd nth fl hd_fields stamp_fields app link b_links].
  assert (Q6 : same_in g6 g lo (length g6)) by (eapply same_in_sub; [exact GG|unfold lo; lia|lia]).
  assert (Q5 : same_in g5 g lo (length g5)).
  { eapply same_in_trans; [exact S6|]. eapply same_in_sub; [exact Q6|lia|lia]. }
  assert (Q4 : same_in g4 g lo (length g4)).
  { eapply same_in_trans; [exact S5|]. eapply same_in_sub; [exact Q5|lia|lia]. }
  assert (Q3 : same_in g3 g lo (length g3)).
  { eapply same_in_trans; [exact S4|]. eapply same_in_sub; [exact Q4|lia|lia]. }
  assert (Q2 : same_in g2 g lo (length g2)).
  { eapply same_in_trans; [exact S3|]. eapply same_in_sub; [exact Q3|lia|lia]. }
  assert (Q1 : same_in g1 g lo (length g1)).
  { eapply same_in_trans; [exact S2|]. eapply same_in_sub; [exact Q2|lia|lia]. }
  rewrite (D1 g Q1). cbn [bind]. rewrite (D2 g Q2). cbn [bind]. rewrite (D6 g Q6). cbn [bind].
  rewrite (D3 g Q3). cbn [bind]. rewrite (D4 g Q4). cbn [bind]. rewrite (D5 g Q5). cbn [bind].
  clear -h. destruct h as [[? ? ? ?] ? ? ? ? ? ? ? ? ? ?]. reflexivity.
Qed.
