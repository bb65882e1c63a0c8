(** Conversion blocks written and read. *)
From Verif Require Import Base BlockModel BlockSpec BlockProofs BlockProofs2 BlockProofs3 BlockProofs4.
From Verif Require Import ConvModel ConvSpec ConvProofs3 CcModel.
From Coq Require Import Reals.
From Flocq Require Import Core.Core IEEE754.BinarySingleNaN IEEE754.Binary IEEE754.Bits.
Local Open Scope N_scope.

Lemma bits_round : forall d, dbl_of_bits (bits_of_dbl d) = d.
Proof.
  intros d. unfold dbl_of_bits, bits_of_dbl.
  rewrite Z2N.id.
  - unfold b64_of_bits, bits_of_b64. rewrite binary_float_of_bits_of_binary_float. apply B2BSN_BSN2B.
  - unfold bits_of_b64.
    exact (proj1 (bits_of_binary_float_range 52 11 eq_refl eq_refl (BSN2B 53 1024 default_nan_pl64 d))).
Qed.

Lemma bits_small : forall d, bits_of_dbl d < 2 ^ 64.
Proof.
  intros d. unfold bits_of_dbl.
  pose proof (bits_of_binary_float_range 52 11 eq_refl eq_refl (BSN2B 53 1024 default_nan_pl64 d)) as H.
  unfold bits_of_b64. change (2 ^ (52 + 11 + 1))%Z with (2 ^ 64)%Z in H. destruct H as [H0 H].
  apply N2Z.inj_lt. rewrite Z2N.id by exact H0. exact H.
Qed.

Lemma cut0_cut : forall t, cut0 t = cut t.
Proof. induction t as [|b r IH]; cbn [cut0 cut]; [auto|]. rewrite IH. reflexivity. Qed.

Definition cref_link (r : cref) (f : file) : res (file * N) :=
  match r with
  | RText _ t => bind (write_tx4 t f) (fun '(f, b) => Ok (f, N.of_nat (b_pos b)))
  | RConv c' => bind (write_conv c' f) (fun '(f, p) => Ok (f, N.of_nat p))
  | _ => Ok (f, 0)
  end.

Fixpoint write_refs (k : nat) (l : list cref) (f : file) : res (file * list N) :=
  match l, k with
  | [], _ => Ok (f, [])
  | _ :: _, O => Ok (f, [])
  | r :: rest, S k' =>
      bind (cref_link r f)
        (fun '(f, l0) => bind (write_refs k' rest f) (fun '(f, ls) => Ok (f, l0 :: ls)))
  end.

Definition cc_len (c : conv) : N :=
  24 + 32 + 8 * N.of_nat (N.to_nat (w16 (N.of_nat (length (c_refs c))))) + 24
  + 8 * w16 (N.of_nat (length (c_vals c))).

Lemma write_conv_eq : forall c f, write_conv c f =
  bind (write_refs (N.to_nat (w16 (N.of_nat (length (c_refs c))))) (c_refs c) f)
    (fun '(f, links) =>
       bind (write_block4 ty_cc (cc_len c) ([0; 0; 0; 0] ++ links) (cc4_body c) f)
            (fun '(f, b) => Ok (f, b_pos b))).
Proof.
  intros [mdf4 typ nof vals dt dec texts ranges refs] f.
  cbn [write_conv c_refs]. unfold cc_len. cbn [c_refs c_vals]. f_equal.
  generalize (N.to_nat (w16 (N.of_nat (length refs)))). revert f.
  induction refs as [|r rest IH]; intros f [|k]; try reflexivity.
  cbn [write_refs]. change (cref_link r f) with
    (match r with
     | RText _ t => bind (write_tx4 t f) (fun '(f, b) => Ok (f, N.of_nat (b_pos b)))
     | RConv c' => bind (write_conv c' f) (fun '(f, p) => Ok (f, N.of_nat p))
     | _ => Ok (f, 0)
     end).
  match goal with |- bind ?a _ = bind ?a _ => destruct a as [[f1 l1]| |]; [|reflexivity|reflexivity] end.
  cbn [bind]. rewrite IH. reflexivity.
Qed.

Definition read_ref (rd : nat -> res conv) (f : file) (l : N) : res cref :=
  if pos64 l then
    let at_ := N.to_nat l in
    let bt := block_type f at_ in
    if list_eq_dec N.eq_dec bt [84; 88] then bind (read_tx4 f at_) (fun t => Ok (RText BTx t))
    else if list_eq_dec N.eq_dec bt [67; 67] then bind (rd at_) (fun c => Ok (RConv c))
    else Ok RNone
  else Ok RNone.

Section Refs.
Variables (rd : nat -> res conv) (f : file).
Fixpoint read_refs (ls : list N) : res (list cref) :=
  match ls with
  | [] => Ok []
  | l :: rest => bind (read_ref rd f l) (fun r => bind (read_refs rest) (fun rs => Ok (r :: rs)))
  end.
End Refs.

Lemma read_conv_S : forall fu dt f pos, read_conv (S fu) dt f pos =
      bind (read_header4 f pos) (fun '(b, p) =>
      bind (read_num false 1 f p) (fun '(typ, p) =>
      bind (read_num false 1 f p) (fun '(prec, p) =>
      bind (read_num false 2 f p) (fun '(flags, p) =>
      bind (read_num false 2 f p) (fun '(nref, p) =>
      bind (read_num false 2 f p) (fun '(nval, p) =>
      bind (read_num false 8 f p) (fun '(_, p) =>
      bind (read_num false 8 f p) (fun '(_, p) =>
      bind (read_vals typ (N.to_nat nval) f p) (fun '(vals, _) =>
      bind (read_refs (read_conv fu dt f) f (map (fun i => link b (4 + i)) (seq 0 (N.to_nat nref))))
        (fun refs =>
           Ok (mkConv true typ nval vals dt (if N.testbit flags 0 then Some prec else None)
                      [] [] refs))))))))))).
Proof. reflexivity. Qed.

(** A block written at the end of a file. *)
Lemma block_placed : forall ty len links body f, type_ok 4 ty -> (0 < length f)%nat ->
  exists f' b x, write_block4 ty len links body f = Ok (f', b) /\ f' = f ++ x /\
    (0 < b_pos b < length f')%nat /\
    (Forall (fun l => l < 2 ^ 64) links ->
     N.of_nat (24 + 8 * length links + length body) < 2 ^ 64 ->
     forall g, holds (f' ++ g) (b_pos b) ty /\
      read_header4 (f' ++ g) (b_pos b) =
        Ok (mkB (b_pos b) ty (N.of_nat (24 + 8 * length links + length body)) links,
            (b_pos b + (24 + 8 * length links))%nat) /\
      holds (f' ++ g) (b_pos b + (24 + 8 * length links)) body).
Proof.
  intros ty len links body f T NE. rewrite write_block4_spec by auto.
  eexists _, _, _. split; [reflexivity|]. cbn [b_pos]. split; [reflexivity|]. split.
  { rewrite !app_length, repeat_length, header_bytes_length. lia. }
  intros FL B g. set (size := N.of_nat (24 + 8 * length links + length body)) in *.
  set (pos := (length f + pad8 (length f))%nat).
  assert (H : holds ((f ++ repeat 0 (pad8 (length f)) ++ header_bytes ty size links ++ body) ++ g) pos
                (header_bytes ty size links ++ body)).
  { apply holds_ext. rewrite app_assoc. rewrite <- (app_nil_r (header_bytes ty size links ++ body)).
    replace pos with (length (f ++ repeat 0 (pad8 (length f)))) by (rewrite app_length, repeat_length; auto).
    pose proof (holds_end (f ++ repeat 0 (pad8 (length f))) (header_bytes ty size links ++ body) []) as H.
    rewrite app_nil_r in *. exact H. }
  apply holds_app in H as [H1 H2]. rewrite header_bytes_length in H2. split.
  - revert H1. generalize ((f ++ repeat 0 (pad8 (length f)) ++ header_bytes ty size links ++ body) ++ g).
    intros F H1. unfold header_bytes in H1. apply holds_app in H1 as [H1 _].
    destruct T as [L _]. rewrite str_bytes_pad, L, Nat.sub_diag, app_nil_r in H1 by lia. exact H1.
  - split; [|exact H2]. apply read_header4_at; auto.
    + eapply type_plain; eauto.
    + destruct T. lia.
    + lia.
Qed.

Lemma type_cc : type_ok 4 ty_cc.
Proof.
  split; [reflexivity|]. split; [|split; reflexivity]. intros X; cbn in X; decompose [or] X; auto; discriminate.
Qed.
Lemma type_tx : type_ok 4 ty_tx.
Proof.
  split; [reflexivity|]. split; [|split; reflexivity]. intros X; cbn in X; decompose [or] X; auto; discriminate.
Qed.
Lemma type_md : type_ok 4 ty_md.
Proof.
  split; [reflexivity|]. split; [|split; reflexivity]. intros X; cbn in X; decompose [or] X; auto; discriminate.
Qed.

Lemma block_type_at : forall f pos a b, holds f pos [35; 35; a; b] -> plain_text [a; b] ->
  block_type f pos = [a; b].
Proof.
  intros f pos a b H P. change [35; 35; a; b] with ([35; 35] ++ [a; b]) in H.
  apply holds_app in H as [H1 H2]. unfold block_type.
  rewrite (read_str_written 2 [35; 35] f pos).
  - cbn [length] in H2. destruct (list_eq_dec N.eq_dec [35; 35] [35; 35]) as [_|C]; [|congruence].
    rewrite (read_str_written 2 [a; b]); auto.
  - split; [|intros _; split; reflexivity]. intros X; cbn in X; decompose [or] X; auto; discriminate.
  - cbn; lia.
  - exact H1.
Qed.

(** What a reference becomes in the file. *)
Lemma tx_placed : forall t f, (0 < length f)%nat -> N.of_nat (25 + length t) < 2 ^ 64 ->
  exists f' b x, write_tx4 t f = Ok (f', b) /\ f' = f ++ x /\ (0 < b_pos b < length f')%nat /\
    forall g, block_type (f' ++ g) (b_pos b) = (if hd 0 t =? 60 then [77; 68] else [84; 88]) /\
      (read_tx4 (f' ++ g) (b_pos b) = Ok (trim (cut0 t))).
Proof.
  intros t f NE B. unfold write_tx4.
  assert (E : match t with 60 :: _ => true | _ => false end = (hd 0 t =? 60)).
  { destruct t as [|a r]; [reflexivity|]. cbn [hd]. destruct (N.eqb_spec a 60) as [->|N]; [reflexivity|].
    destruct a as [|p]; [reflexivity|]. do 6 (destruct p as [p|p|]; try reflexivity).
    exfalso. apply N. reflexivity. }
  rewrite E.
  destruct (block_placed (if hd 0 t =? 60 then ty_md else ty_tx) 0 [] (t ++ [0]) f) as
    (f' & b & x & W & X & P & R).
  { destruct (hd 0 t =? 60); [apply type_md|apply type_tx]. }
  { exact NE. }
  assert (B1 : N.of_nat (24 + 8 * @length N [] + length (t ++ [0])) < 2 ^ 64).
  { rewrite app_length. cbn [length]. lia. }
  specialize (R ltac:(constructor) B1).
  exists f', b, x. split; [exact W|]. split; [exact X|]. split; [exact P|]. intros g.
  destruct (R g) as (H1 & H2 & H3). cbn [length] in *. rewrite Nat.mul_0_r, Nat.add_0_r in *. split.
  - destruct (hd 0 t =? 60); apply (block_type_at _ _ _ _ H1);
      (split; [|intros _; split; reflexivity]); intros Y; cbn in Y; decompose [or] Y; auto; discriminate.
  - unfold read_tx4. rewrite H2. cbn [bind b_len b_links length].
    rewrite Nat.mul_0_r, Nat.add_0_r, app_length. cbn [length].
    assert (W64 : w64 (N.of_nat (24 + (length t + 1)) + (2 ^ 64 - N.of_nat 24)) = N.of_nat (length t + 1)).
    { unfold w64. replace (N.of_nat (24 + (length t + 1)) + (2 ^ 64 - N.of_nat 24))
        with (N.of_nat (length t + 1) + 1 * 2 ^ 64) by lia.
      rewrite N.mod_add by lia. apply N.mod_small. lia. }
    rewrite W64, Nat2N.id. f_equal. unfold read_str. cbn [fst].
    apply read_chars_cut in H3. rewrite app_length in H3. cbn [length] in H3. rewrite H3, cut_app_zero.
    reflexivity.
Qed.

(** Conversions that fit the format: the values are of the alternative the type asks for, all
    counts fit 16 bits. *)
Definition val_ok (typ : N) (v : pval) : Prop :=
  match v with
  | PU u => typ = tBitText /\ u < 2 ^ 64
  | PD _ => typ <> tBitText
  end.

Inductive fits : conv -> Prop :=
| fits_intro : forall c, c_mdf4 c = true -> c_type c < 256 ->
    N.of_nat (length (c_vals c)) < 65536 -> N.of_nat (length (c_refs c)) < 65536 ->
    Forall (val_ok (c_type c)) (c_vals c) ->
    (forall d, c_decimals c = Some d -> d < 256) ->
    Forall fits_ref (c_refs c) -> fits c
with fits_ref : cref -> Prop :=
| FRNone : fits_ref RNone
| FRText : forall b t, N.of_nat (25 + length t) < 2 ^ 64 -> fits_ref (RText b t)
| FRConv : forall c, fits c -> fits_ref (RConv c).

(** Levels of conversions. *)
Fixpoint depth (c : conv) : nat :=
  match c with
  | mkConv _ _ _ _ _ _ _ _ refs =>
      S ((fix go (l : list cref) : nat :=
            match l with
            | [] => O
            | RConv c' :: r => Nat.max (depth c') (go r)
            | _ :: r => go r
            end) refs)
  end.

Fixpoint depths (l : list cref) : nat :=
  match l with
  | [] => O
  | RConv c' :: r => Nat.max (depth c') (depths r)
  | _ :: r => depths r
  end.

Lemma depth_eq : forall c, depth c = S (depths (c_refs c)).
Proof.
  intros [m t n v d e tx rg refs]. cbn [depth c_refs]. f_equal.
Qed.

Lemma read_vals_at : forall typ vs f p, Forall (val_ok typ) vs ->
  holds f p (concat (map (fun v => le_bytes 8 (val_bits v)) vs)) ->
  read_vals typ (length vs) f p = Ok (vs, (p + 8 * length vs)%nat).
Proof.
  intros typ vs. induction vs as [|v r IH]; intros f p F H.
  - cbn [read_vals length]. f_equal. f_equal. lia.
  - cbn [map concat] in H. apply holds_app in H as [H1 H2]. rewrite le_bytes_length in H2.
    inversion F as [|? ? V F']; subst. cbn [length read_vals].
    assert (B : val_bits v < 256 ^ N.of_nat 8).
    { change (256 ^ N.of_nat 8) with (2 ^ 64). destruct v; cbn [val_bits]; [apply V|apply bits_small]. }
    rewrite (read_num_le f p 8 _ H1 B). cbn [bind]. rewrite (IH f (p + 8)%nat F' H2). cbn [bind].
    f_equal. f_equal.
    + f_equal. destruct v as [u|d]; cbn [val_bits val_ok] in *.
      * destruct V as [-> _]. reflexivity.
      * destruct (N.eqb_spec typ tBitText); [contradiction|]. f_equal. apply bits_round.
    + lia.
Qed.

(** The step over the references, given the claim for the conversions among them. *)
Definition conv_claim (c : conv) : Prop := forall f, fits c -> (0 < length f)%nat ->
  exists f' p x, write_conv c f = Ok (f', p) /\ f' = f ++ x /\ (0 < p < length f')%nat /\
    (N.of_nat (length f') < 2 ^ 63 -> forall g dt fuel, (depth c <= fuel)%nat ->
       block_type (f' ++ g) p = [67; 67] /\
       read_conv fuel dt (f' ++ g) p = Ok (reread dt (written c))).

Lemma small64 : forall p : nat, forall n : nat, (p < n)%nat -> N.of_nat n < 2 ^ 63 -> N.of_nat p < 2 ^ 64.
Proof.
  intros p n L B. assert (N.of_nat p < N.of_nat n) by lia.
  eapply N.lt_trans; [eassumption|]. eapply N.lt_trans; [exact B|]. reflexivity.
Qed.

Lemma refs_placed : forall refs f, Forall fits_ref refs ->
  (forall c, In (RConv c) refs -> conv_claim c) -> (0 < length f)%nat ->
  exists f' ls x, write_refs (length refs) refs f = Ok (f', ls) /\ f' = f ++ x /\
    length ls = length refs /\
    (N.of_nat (length f') < 2 ^ 63 ->
       Forall (fun l => l < 2 ^ 64) ls /\
       forall g dt fuel, (depths refs <= fuel)%nat ->
         read_refs (read_conv fuel dt (f' ++ g)) (f' ++ g) ls =
         Ok (map (load_ref dt) (map save_ref refs))).
Proof.
  induction refs as [|r rest IH]; intros f F C NE.
  - exists f, [], []. cbn [write_refs length read_refs map]. rewrite app_nil_r.
    split; [reflexivity|]. split; [reflexivity|]. split; [reflexivity|].
    intros _. split; [constructor|]. reflexivity.
  - inversion F as [|? ? Fr F']; subst. cbn [length write_refs].
    (* the reference itself *)
    assert (K : exists f1 l1 x1, cref_link r f = Ok (f1, l1) /\ f1 = f ++ x1 /\
       (N.of_nat (length f1) < 2 ^ 63 -> l1 < 2 ^ 64 /\
         forall g dt fuel, (depths (r :: rest) <= fuel)%nat ->
           read_ref (read_conv fuel dt (f1 ++ g)) (f1 ++ g) l1 = Ok (load_ref dt (save_ref r)))).
    { destruct Fr as [|b t Bt|c Fc].
      - exists f, 0, []. rewrite app_nil_r. split; [reflexivity|]. split; [reflexivity|].
        intros _. split; [reflexivity|]. reflexivity.
      - destruct (tx_placed t f NE Bt) as (f1 & b1 & x1 & W & X & P & R).
        exists f1, (N.of_nat (b_pos b1)), x1. cbn [cref_link]. rewrite W. cbn [bind].
        split; [reflexivity|]. split; [exact X|]. intros BL.
        split; [eapply small64; [apply P|exact BL]|]. intros g dt fuel _. unfold read_ref.
        assert (PP : pos64 (N.of_nat (b_pos b1)) = true).
        { unfold pos64. apply andb_true_intro. split; apply N.ltb_lt; lia. }
        rewrite PP, Nat2N.id. destruct (R g) as [R1 R2]. rewrite R1. cbn [save_ref].
        destruct (hd 0 t =? 60); cbn [load_ref].
        + reflexivity.
        + destruct (list_eq_dec N.eq_dec [84; 88] [84; 88]); [|congruence]. rewrite R2. reflexivity.
      - destruct (C c (or_introl eq_refl) f Fc NE) as (f1 & p1 & x1 & W & X & P & R).
        exists f1, (N.of_nat p1), x1. cbn [cref_link]. rewrite W. cbn [bind].
        split; [reflexivity|]. split; [exact X|]. intros BL.
        split; [eapply small64; [apply P|exact BL]|]. intros g dt fuel D. unfold read_ref.
        assert (PP : pos64 (N.of_nat p1) = true).
        { unfold pos64. apply andb_true_intro. split; apply N.ltb_lt; lia. }
        rewrite PP, Nat2N.id. cbn [depths] in D.
        destruct (R BL g dt fuel ltac:(lia)) as [R1 R2]. rewrite R1.
        destruct (list_eq_dec N.eq_dec [67; 67] [84; 88]); [congruence|].
        destruct (list_eq_dec N.eq_dec [67; 67] [67; 67]); [|congruence]. rewrite R2. reflexivity. }
    destruct K as (f1 & l1 & x1 & W1 & X1 & R1).
    destruct (IH f1 F') as (f2 & ls & x2 & W2 & X2 & L2 & R2).
    { intros c I. apply C. right. exact I. }
    { rewrite X1, app_length. lia. }
    exists f2, (l1 :: ls), (x1 ++ x2). rewrite W1. cbn [bind]. rewrite W2. cbn [bind].
    split; [reflexivity|]. split; [rewrite X2, X1, app_assoc; reflexivity|].
    split; [cbn [length]; lia|]. intros BL. destruct (R2 BL) as [S2 RR2].
    assert (BL1 : N.of_nat (length f1) < 2 ^ 63).
    { rewrite X2, app_length in BL. lia. }
    destruct (R1 BL1) as [S1 RR1]. split; [constructor; auto|]. intros g dt fuel D.
    cbn [read_refs map].
    assert (D2 : (depths rest <= fuel)%nat) by (destruct r; cbn [depths] in D; lia).
    specialize (RR1 (x2 ++ g) dt fuel D). rewrite app_assoc, <- X2 in RR1. rewrite RR1. cbn [bind].
    rewrite (RR2 g dt fuel D2). reflexivity.
Qed.

Lemma links_at : forall pos ty len a ls, map (fun i => link (mkB pos ty len ([0; 0; 0; 0] ++ a ++ ls)) (4 + (length a + i))) (seq 0 (length ls)) = ls.
Proof.
  intros pos ty len a ls. revert a. induction ls as [|l r IH]; intros a; [reflexivity|].
  cbn [length seq map]. f_equal.
  - unfold link. cbn [b_links]. rewrite app_nth2 by (cbn [length]; lia).
    rewrite app_nth2 by (cbn [length]; lia).
    match goal with |- nth ?k _ _ = _ => replace k with O by (cbn [length]; lia) end.
    reflexivity.
  - rewrite <- seq_shift, map_map. rewrite <- (IH (a ++ [l])) at 2. apply map_ext. intros i.
    rewrite <- (app_assoc a [l] r). f_equal. rewrite app_length. cbn [length]. lia.
Qed.

Lemma conv_placed : forall c, conv_claim c.
Proof.
  intros c. induction c as [c IH] using conv_nest. intros f F NE.
  inversion F as [? M T BV BR FV FD FR]; subst. rewrite write_conv_eq.
  assert (WR : w16 (N.of_nat (length (c_refs c))) = N.of_nat (length (c_refs c))).
  { unfold w16. apply N.mod_small. change (2 ^ 16) with 65536. exact BR. }
  assert (WV : w16 (N.of_nat (length (c_vals c))) = N.of_nat (length (c_vals c))).
  { unfold w16. apply N.mod_small. change (2 ^ 16) with 65536. exact BV. }
  rewrite WR, Nat2N.id.
  destruct (refs_placed (c_refs c) f FR IH NE) as (f1 & ls & x1 & W1 & X1 & L1 & R1).
  rewrite W1. cbn [bind].
  assert (LB : length (cc4_body c) = (24 + 8 * length (c_vals c))%nat).
  { unfold cc4_body. rewrite WV, Nat2N.id, firstn_all. rewrite !app_length, !le_bytes_length.
    assert (E : forall l, length (concat (map (fun v => le_bytes 8 (val_bits v)) l)) = (8 * length l)%nat).
    { induction l as [|v l IHl]; [reflexivity|]. cbn [map concat length].
      rewrite app_length, le_bytes_length, IHl. lia. }
    rewrite E. lia. }
  assert (NE1 : (0 < length f1)%nat) by (rewrite X1, app_length; lia).
  destruct (block_placed ty_cc (cc_len c) ([0; 0; 0; 0] ++ ls) (cc4_body c) f1 type_cc NE1) as
    (f' & b & x & W & X & P & R).
  rewrite W. cbn [bind]. exists f', (b_pos b), (x1 ++ x). split; [reflexivity|].
  split; [rewrite X, X1, <- app_assoc; reflexivity|]. split; [exact P|].
  intros BL g dt fuel D. rewrite depth_eq in D. destruct fuel as [|fu]; [lia|].
  assert (BL1 : N.of_nat (length f1) < 2 ^ 63).
  { rewrite X, app_length in BL. lia. }
  destruct (R1 BL1) as [S1 RR1].
  assert (LL : N.of_nat (24 + 8 * length ([0; 0; 0; 0] ++ ls) + length (cc4_body c)) < 2 ^ 64).
  { rewrite app_length, L1, LB. change (length [0;0;0;0]) with 4%nat.
    change (2 ^ 64) with 18446744073709551616. lia. }
  assert (S0 : Forall (fun l => l < 2 ^ 64) ([0; 0; 0; 0] ++ ls)).
  { apply Forall_app. split; [|exact S1]. repeat constructor. }
  specialize (R S0 LL). clear W S0.
  destruct (R g) as (H1 & H2 & H3). split.
  - apply (block_type_at _ _ _ _ H1). split; [|intros _; split; reflexivity].
    intros Y; cbn in Y; decompose [or] Y; auto; discriminate.
  - rewrite read_conv_S, H2. cbn [bind].
    clear H1 H2.
    unfold cc4_body in H3. rewrite WR, WV, Nat2N.id, firstn_all in H3.
    apply holds_app in H3 as [A1 H3]. apply holds_app in H3 as [A2 H3].
    apply holds_app in H3 as [A3 H3]. apply holds_app in H3 as [A4 H3].
    apply holds_app in H3 as [A5 H3]. apply holds_app in H3 as [A6 H3].
    apply holds_app in H3 as [A7 H3]. rewrite !le_bytes_length in *.
    rewrite (read_num_le _ _ 1 _ A1) by exact T. cbn [bind].
    rewrite (read_num_le _ _ 1 _ A2) by (destruct (c_decimals c) as [d|]; [apply FD; reflexivity|reflexivity]).
    cbn [bind].
    rewrite (read_num_le _ _ 2 _ A3) by (destruct (c_decimals c); reflexivity). cbn [bind].
    rewrite (read_num_le _ _ 2 _ A4) by exact BR. cbn [bind].
    rewrite (read_num_le _ _ 2 _ A5) by exact BV. cbn [bind].
    rewrite (read_num_le _ _ 8 _ A6) by reflexivity. cbn [bind].
    rewrite (read_num_le _ _ 8 _ A7) by reflexivity. cbn [bind].
    rewrite Nat2N.id, (read_vals_at _ _ _ _ FV H3). cbn [bind].
    rewrite Nat2N.id, <- L1.
    pose proof (links_at (b_pos b) ty_cc
       (N.of_nat (24 + 8 * length ([0; 0; 0; 0] ++ ls) + length (cc4_body c))) [] ls) as LK.
    cbn [length Nat.add app] in LK. cbn [length Nat.add app]. rewrite LK.
    specialize (RR1 (x ++ g) dt fu ltac:(lia)). rewrite app_assoc, <- X in RR1.
    rewrite RR1. cbn [bind].
    rewrite reread_eq, written_eq. cbn [c_mdf4 c_type c_vals c_nof c_dtype c_decimals c_texts c_ranges c_refs].
    rewrite M, WV. destruct (c_decimals c); reflexivity.
Qed.
