(** The conversion of a channel is read back from the bytes that were appended for it. *)
From Verif Require Import Base BlockModel BlockSpec BlockProofs BlockProofs2 BlockProofs3 BlockProofs4
  ConvModel ConvSpec ConvProofs3 CcModel CcProofs MetaModel MetaSpec MetaProofs.
Local Open Scope N_scope.

(** What is appended depends only on the length of the file. *)
Definition placed (wr : file -> res (file * nat)) : Prop :=
  forall f, (0 < length f)%nat -> exists x p, wr f = Ok (f ++ x, p) /\ (length f <= p < length f + length x)%nat /\
    forall h, length h = length f -> wr h = Ok (h ++ x, p).

Lemma placed_block : forall ty len links body,
  placed (fun f => bind (write_block4 ty len links body f) (fun '(f, b) => Ok (f, b_pos b))).
Proof.
  intros ty len links body f NE.
  rewrite write_block4_spec by auto. cbn [bind b_pos]. eexists _, _. split; [reflexivity|]. split.
  - rewrite !app_length, repeat_length, header_bytes_length. lia.
  - intros h L. rewrite write_block4_spec by lia. cbn [bind b_pos]. rewrite L. reflexivity.
Qed.

Definition placed_links (wr : file -> res (file * list N)) : Prop :=
  forall f, (0 < length f)%nat -> exists x ls, wr f = Ok (f ++ x, ls) /\
    forall h, length h = length f -> wr h = Ok (h ++ x, ls).

Lemma placed_refs : forall refs n, (forall c, In (RConv c) refs -> placed (write_conv c)) ->
  placed_links (write_refs n refs).
Proof.
  induction refs as [|r rest IH]; intros n C f NE.
  - destruct n; exists [], []; split; try (rewrite app_nil_r; reflexivity); intros h L; rewrite app_nil_r; reflexivity.
  - destruct n as [|k].
    { exists [], []. split; [rewrite app_nil_r; reflexivity|]. intros h L. rewrite app_nil_r. reflexivity. }
    cbn [write_refs].
    assert (K : exists x1 l1, cref_link r f = Ok (f ++ x1, l1) /\
       forall h, length h = length f -> cref_link r h = Ok (h ++ x1, l1)).
    { destruct r as [|b t|c|]; cbn [cref_link].
      - exists [], 0. split; [rewrite app_nil_r; auto|]. intros h _. rewrite app_nil_r. auto.
      - unfold write_tx4. set (ty := if match t with 60 :: _ => true | _ => false end then ty_md else ty_tx).
        destruct (placed_block ty 0 [] (t ++ [0]) f NE) as (x & p & W & _ & H).
        exists x, (N.of_nat p). split.
        + destruct (write_block4 ty 0 [] (t ++ [0]) f) as [[f1 b1]| |]; try discriminate. cbn [bind] in *.
          inversion W; subst. reflexivity.
        + intros h L. specialize (H h L).
          destruct (write_block4 ty 0 [] (t ++ [0]) h) as [[f1 b1]| |]; try discriminate. cbn [bind] in *.
          inversion H; subst. reflexivity.
      - destruct (C c (or_introl eq_refl) f NE) as (x & p & W & _ & H). exists x, (N.of_nat p). split.
        + rewrite W. reflexivity.
        + intros h L. rewrite (H h L). reflexivity.
      - exists [], 0. split; [rewrite app_nil_r; auto|]. intros h _. rewrite app_nil_r. auto. }
    destruct K as (x1 & l1 & W1 & H1).
    destruct (IH k (fun c I => C c (or_intror I)) (f ++ x1)) as (x2 & ls & W2 & H2).
    { rewrite app_length. lia. }
    exists (x1 ++ x2), (l1 :: ls). rewrite W1. cbn [bind]. rewrite W2. cbn [bind].
    split; [rewrite app_assoc; reflexivity|]. intros h L. rewrite (H1 h L). cbn [bind].
    rewrite H2 by (rewrite !app_length; lia). cbn [bind]. rewrite app_assoc. reflexivity.
Qed.

Lemma placed_conv : forall c, placed (write_conv c).
Proof.
  intros c. induction c as [c IH] using conv_nest. intros f NE. rewrite write_conv_eq.
  destruct (placed_refs (c_refs c) (N.to_nat (w16 (N.of_nat (length (c_refs c))))) IH f NE) as (x1 & ls & W1 & H1).
  rewrite W1. cbn [bind].
  destruct (placed_block ty_cc (cc_len c) ([0; 0; 0; 0] ++ ls) (cc4_body c) (f ++ x1)) as (x2 & p & W2 & B & H2).
  { rewrite app_length. lia. }
  exists (x1 ++ x2), p. split; [rewrite W2, app_assoc; reflexivity|].
  rewrite app_length in *. split; [lia|]. intros h L. rewrite write_conv_eq, (H1 h L). cbn [bind].
  rewrite H2 by (rewrite !app_length; lia). rewrite app_assoc. reflexivity.
Qed.

(** A conversion that can be stored fits, and this is what is read. *)
Definition ref_form (dt : N) (r : cref) : cref :=
  match r with RText _ t => RText BTx t | RConv c => RConv (conv_form dt c) | _ => r end.

Lemma conv_form_eq : forall dt c, conv_form dt c =
  mkConv true (c_type c) (N.of_nat (length (c_vals c))) (c_vals c) dt (c_decimals c) [] []
    (map (ref_form dt) (c_refs c)).
Proof. intros dt [m t n v d e tx rg refs]. reflexivity. Qed.

Lemma conv_ok_fits : forall dt c, conv_ok c -> fits c /\ saveable c /\ reread dt (written c) = conv_form dt c.
Proof.
  intros dt c. induction c as [c IH] using conv_nest. intros OK.
  inversion OK as [type nof vals dtype decimals texts ranges refs T LV FV D LR FR E]. subst c.
  cbn [c_refs] in IH.
  assert (K : Forall fits_ref refs /\ Forall saveable_ref refs /\
              map (load_ref dt) (map save_ref refs) = map (ref_form dt) refs).
  { clear OK LR. induction refs as [|r rest IHr]; [split; [constructor|split; [constructor|reflexivity]]|].
    inversion_clear FR as [|? ? R FR']. destruct (IHr (fun c I => IH c (or_intror I)) FR') as (K1 & K3 & K2).
    cbn [map]. rewrite K2. destruct R as [|b t P M B|c C].
    - split; [constructor; auto; constructor|]. split; [constructor; auto; constructor|reflexivity].
    - split; [|split].
      + constructor; auto. constructor. change (2 ^ 64) with (2 * 2 ^ 63). lia.
      + constructor; auto. constructor. split; [apply P|]. split; [apply trim_id; exact P|exact M].
      + cbn [save_ref]. destruct (N.eqb_spec (List.hd 0 t) 60); [contradiction|]. cbn [load_ref ref_form].
        destruct P as [Z P]. rewrite cut0_id by auto. rewrite trim_id by (split; auto). reflexivity.
    - destruct (IH c (or_introl eq_refl) C) as (F & SV & E). split; [|split].
      + constructor; auto. constructor. exact F.
      + constructor; auto. constructor. exact SV.
      + cbn [save_ref load_ref ref_form]. rewrite E. reflexivity. }
  destruct K as (K1 & K3 & K2). split; [|split].
  - constructor; cbn [c_mdf4 c_type c_vals c_refs c_decimals]; [reflexivity|exact T|exact LV|exact LR| | |exact K1].
    + eapply Forall_impl; [|exact FV]. intros [u|d]; cbn [value_ok val_ok]; auto.
    + intros d ->. exact D.
  - constructor; cbn [c_mdf4 c_type c_vals c_refs c_decimals]; [reflexivity|exact LV|exact K3].
  - rewrite conv_form_eq, reread_eq, written_eq.
    cbn [c_mdf4 c_type c_vals c_nof c_dtype c_decimals c_texts c_ranges c_refs].
    rewrite K2. unfold w16. rewrite N.mod_small by exact LV. reflexivity.
Qed.

Lemma emits_cc : forall dt c k, match c with Some c => conv_ok c /\ (depth c <= k)%nat | None => True end ->
  emits (write_cc_opt c) (read_cc_opt k dt) (option_map (conv_form dt) c).
Proof.
  intros dt c k OK f NE. destruct c as [c|].
  2:{ exists f, 0. split; [reflexivity|]. split; [apply grows_refl|]. intros _. split; reflexivity. }
  destruct OK as [OK D]. destruct (conv_ok_fits dt c OK) as (F & _ & E).
  destruct (placed_conv c f NE) as (x & p & W & P & H).
  exists (f ++ x), (N.of_nat p). cbn [write_cc_opt]. rewrite W. cbn [bind]. split; [reflexivity|].
  split; [exists x; reflexivity|]. rewrite app_length. intros B. split; [lia|]. intros g S.
  assert (LG : (length f + length x <= length g)%nat).
  { specialize (S (length f + length x - 1)%nat ltac:(lia)).
    assert (Q : nth_error (f ++ x) (length f + length x - 1) <> None)
      by (apply nth_error_Some; rewrite app_length; lia).
    rewrite <- S in Q. apply nth_error_Some in Q. lia. }
  set (h := firstn (length f) g).
  assert (LH : length h = length f) by (unfold h; rewrite firstn_length; lia).
  assert (EG : g = (h ++ x) ++ skipn (length f + length x) g).
  { rewrite <- (firstn_skipn (length f + length x) g) at 1. f_equal.
    apply nth_error_ext_N.
    - rewrite firstn_length, app_length. lia.
    - intros i Hi. rewrite firstn_length in Hi. rewrite nth_error_firstn' by lia.
      destruct (Nat.lt_ge_cases i (length f)) as [L|L].
      + rewrite nth_error_app1 by lia. unfold h. rewrite nth_error_firstn' by lia. reflexivity.
      + rewrite S by lia. rewrite !nth_error_app2 by lia. rewrite LH. reflexivity. }
  destruct (conv_placed c h F ltac:(lia)) as (f' & p' & x' & W' & _ & _ & R).
  rewrite (H h LH) in W'. inversion W' as [[E1 E2]]. subst f' p'.
  unfold read_cc_opt. rewrite pos64_pos by lia. rewrite Nat2N.id, EG.
  destruct (R ltac:(rewrite app_length; lia) (skipn (length f + length x) g) dt k D) as [_ R2].
  rewrite R2, E. reflexivity.
Qed.
