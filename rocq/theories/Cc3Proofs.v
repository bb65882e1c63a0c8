(** Version 3 conversion blocks. *)
From Verif Require Import Base BlockModel BlockSpec BlockProofs BlockProofs2 BlockProofs3 BlockProofs4.
From Verif Require Import ConvModel ConvSpec ConvProofs3 CcModel CcProofs.
From Coq Require Import Reals.
From Flocq Require Import Core.Core IEEE754.BinarySingleNaN.
Local Open Scope N_scope.

(** The size in the file: [bytes] or, if it does not fit, what is left of it. *)
Lemma sized3 : forall ty len bytes body f, (0 < length f)%nat -> length ty = 2%nat ->
  let '(f1, b, p) := write_header3 false (mkB 0 ty len []) f in
  exists b', update_size3 false b bytes (put f1 p body) =
    Ok (f ++ header3_bytes false ty (if len =? w32 bytes then len else w16 bytes) [] ++ body, b') /\
    b_pos b' = length f.
Proof.
  intros ty len bytes body f NE LT. unfold write_header3. cbn [b_type b_len b_links].
  rewrite put_end. rewrite <- app_length, put_end. unfold update_size3. cbn [b_pos b_len b_type b_links].
  replace (length f =? 0)%nat with false by (symmetry; apply Nat.eqb_neq; lia).
  destruct (len =? w32 bytes).
  - exists (mkB (length f) ty len []). split; [|reflexivity]. rewrite <- app_assoc. reflexivity.
  - exists (mkB (length f) ty (w16 bytes) []). split; [|reflexivity]. f_equal. f_equal. unfold header3_bytes. cbn [map concat].
    rewrite !app_nil_r.
    assert (E2 : str_bytes 2 ty = ty) by (rewrite str_bytes_pad, LT, Nat.sub_diag, app_nil_r by lia; auto).
    rewrite E2. replace (length f + 2)%nat with (length (f ++ ty)) by (rewrite app_length; lia).
    rewrite (app_assoc f ty), <- (app_assoc (f ++ ty)).
    rewrite put_in by (rewrite !app_length; lia).
    rewrite firstn_app, Nat.sub_diag, firstn_all. cbn [firstn]. rewrite app_nil_r.
    rewrite num_bytes_length, skipn_app, (skipn_all2 (f ++ ty)) by lia.
    replace (length (f ++ ty) + 2 - length (f ++ ty))%nat with 2%nat by lia.
    rewrite skipn_app, (skipn_all2 (num_bytes false 2 len)) by (rewrite num_bytes_length; lia).
    rewrite num_bytes_length, Nat.sub_diag. cbn [skipn app]. rewrite <- !app_assoc. reflexivity.
Qed.

Definition cc3_fixed (t : N) : list N :=
  le_bytes 2 0 ++ le_bytes 8 0 ++ le_bytes 8 0 ++ str_bytes 20 [] ++ le_bytes 2 t.

Definition cc3_size (c : cc3) (tail : list N) : N :=
  N.of_nat (4 + length (cc3_fixed (k_type c)) + length tail)
  - (if k_type c =? 10 then N.of_nat (length (k_formula c)) else 0).

Lemma fixed_length : forall t, length (cc3_fixed t) = 40%nat.
Proof.
  intros. unfold cc3_fixed. rewrite !app_length, !le_bytes_length, str_bytes_length. reflexivity.
Qed.

(** Where the parts of a written block are. *)
Lemma cc3_placed : forall c pads f f1 links, (0 < length f)%nat -> k_type c < 65536 ->
  write_range_texts false (k_ranges c) f = (f1, links) -> (exists x, f1 = f ++ x) ->
  (2 <= length (cc3_tail c pads links))%nat ->
  (k_type c = 10 -> (length (k_formula c) + 2 <= length (cc3_tail c pads links))%nat) ->
  cc3_size c (cc3_tail c pads links) < 65536 ->
  exists f' p, write_cc3 c pads f = Ok (f', p) /\ (0 < p)%nat /\ (exists x, f' = f1 ++ x) /\
    forall g, holds (f' ++ g) (p + 44) (cc3_tail c pads links) /\
      read_cc3 (f' ++ g) p =
        bind (read_num false 2 (f' ++ g) (p + 44)) (fun '(nof, q) =>
          let n := N.to_nat nof in
          let t := k_type c in
          if (t =? 0) || (t =? 6) || (t =? 7) || (t =? 8) || (t =? 9) then
            bind (read_dbls n (f' ++ g) q) (fun '(vs, _) => Ok (mkCc3 t vs [] [] []))
          else if (t =? 1) || (t =? 2) then
            bind (read_dbls (2 * n) (f' ++ g) q) (fun '(vs, _) => Ok (mkCc3 t vs [] [] []))
          else if t =? 10 then
            Ok (mkCc3 t [] (if (n =? 0)%nat then [] else fst (read_str n (f' ++ g) q)) [] [])
          else if t =? 11 then bind (read_texts n (f' ++ g) q) (fun l => Ok (mkCc3 t [] [] l []))
          else if t =? 12 then bind (read_ranges n (f' ++ g) q) (fun l => Ok (mkCc3 t [] [] [] l))
          else Ok (mkCc3 t [] [] [] [])).
Proof.
  intros c pads f f1 links NE T E [x X] L2 LF SZ. unfold write_cc3. rewrite E.
  set (tail := cc3_tail c pads links) in *.
  assert (NE1 : (0 < length f1)%nat) by (rewrite X, app_length; lia).
  fold (cc3_fixed (k_type c)).
  pose proof (sized3 [67; 67] 46 (cc3_size c tail) (cc3_fixed (k_type c) ++ tail) f1 NE1 eq_refl) as S.
  destruct (write_header3 false (mkB 0 [67; 67] 46 []) f1) as [[f2 b] p].
  destruct S as (b' & U & P). fold (cc3_size c tail). rewrite U. cbn [bind]. rewrite P.
  set (size := if 46 =? w32 (cc3_size c tail) then 46 else w16 (cc3_size c tail)) in *.
  assert (GE : 46 <= cc3_size c tail).
  { unfold cc3_size. rewrite fixed_length. destruct (N.eqb_spec (k_type c) 10) as [E10|_].
    - specialize (LF E10). lia.
    - lia. }
  assert (SE : size = cc3_size c tail).
  { unfold size. unfold w32, w16. rewrite (N.mod_small _ (2 ^ 32)), (N.mod_small _ (2 ^ 16)).
    - destruct (N.eqb_spec 46 (cc3_size c tail)); auto.
    - exact SZ.
    - eapply N.lt_trans; [exact SZ|reflexivity]. }
  eexists _, _. split; [reflexivity|]. split; [exact NE1|]. split; [eexists; reflexivity|].
  intros g. set (F := (f1 ++ header3_bytes false [67; 67] size [] ++ cc3_fixed (k_type c) ++ tail) ++ g).
  assert (H : holds F (length f1) (header3_bytes false [67; 67] size [] ++ cc3_fixed (k_type c) ++ tail)).
  { unfold F. rewrite <- app_assoc. apply holds_end. }
  apply holds_app in H as [H1 H]. apply holds_app in H as [H2 H3].
  rewrite header3_length in H2, H3. rewrite fixed_length in H3. cbn [length] in H2, H3.
  replace (length f1 + (4 + 4 * 0) + 40)%nat with (length f1 + 44)%nat in H3 by lia.
  split; [exact H3|]. unfold read_cc3.
  assert (TO : type_ok 2 [67; 67]).
  { split; [reflexivity|]. split; [|split; reflexivity]. intros Y; cbn in Y; decompose [or] Y; auto; discriminate. }
  assert (RH : read_header3 false 0 F (length f1) = Ok (mkB (length f1) [67; 67] size [], (length f1 + 4)%nat)).
  { pose proof (read_header3_at false F (length f1) [67; 67] size [] H1 TO) as RH.
    cbn [length] in RH. replace (4 + 4 * 0)%nat with 4%nat in RH by reflexivity.
    apply RH; [discriminate|rewrite SE; exact SZ|constructor]. }
  rewrite RH. cbn [bind b_len].
  replace (length f1 + (4 + 4 * 0))%nat with (length f1 + 4)%nat in H2 by lia.
  unfold cc3_fixed in H2.
  apply holds_app in H2 as [A1 H2]. apply holds_app in H2 as [A2 H2].
  apply holds_app in H2 as [A3 H2]. apply holds_app in H2 as [A4 A5].
  rewrite !le_bytes_length in *. rewrite str_bytes_length in *.
  rewrite (read_num_le _ _ 2 _ A1) by reflexivity. cbn [bind].
  rewrite (read_num_le _ _ 8 _ A2) by reflexivity. cbn [bind].
  rewrite (read_num_le _ _ 8 _ A3) by reflexivity. cbn [bind].
  unfold read_str at 1.
  rewrite (read_num_le _ _ 2 _ A5) by exact T. cbn [bind].
  replace (44 <? size) with true by (symmetry; apply N.ltb_lt; rewrite SE; lia).
  replace (length f1 + 4 + 2 + 8 + 8 + 20 + 2)%nat with (length f1 + 44)%nat by lia.
  reflexivity.
Qed.

(* ------------------------------------------------------------------ *)
(** ** Formula, text table *)

Lemma no_ranges : forall c f, k_ranges c = [] -> write_range_texts false (k_ranges c) f = (f, []).
Proof. intros c f ->. reflexivity. Qed.

Lemma read_formula : forall c pads f, (0 < length f)%nat -> k_type c = 10 -> k_ranges c = [] ->
  plain_text (k_formula c) -> N.of_nat (length (k_formula c)) < 65536 ->
  exists f' p, write_cc3 c pads f = Ok (f', p) /\
    forall g, read_cc3 (f' ++ g) p = Ok (mkCc3 10 [] (k_formula c) [] []).
Proof.
  intros c pads f NE T R PT LF.
  assert (W : w16 (N.of_nat (length (k_formula c))) = N.of_nat (length (k_formula c))).
  { apply w16_id. exact LF. }
  assert (TE : cc3_tail c pads [] = le_bytes 2 (N.of_nat (length (k_formula c))) ++ k_formula c).
  { unfold cc3_tail. rewrite T. cbn [N.eqb Pos.eqb orb]. rewrite W. reflexivity. }
  destruct (cc3_placed c pads f f [] NE) as (f' & p & E & P & _ & K).
  - rewrite T. reflexivity.
  - apply no_ranges. exact R.
  - exists []. rewrite app_nil_r. reflexivity.
  - rewrite TE, app_length, le_bytes_length. lia.
  - intros _. rewrite TE, app_length, le_bytes_length. lia.
  - unfold cc3_size. rewrite T, TE, app_length, le_bytes_length, fixed_length. cbn [N.eqb Pos.eqb]. lia.
  - exists f', p. split; [exact E|]. intros g. destruct (K g) as [H ->]. rewrite TE in H.
    apply holds_app in H as [H1 H2]. rewrite le_bytes_length in H2.
    rewrite (read_num_le _ _ 2 _ H1) by exact LF. cbn [bind]. cbv zeta. rewrite T.
    cbn [N.eqb Pos.eqb orb]. rewrite Nat2N.id. f_equal. f_equal.
    destruct (length (k_formula c) =? 0)%nat eqn:Z.
    + apply Nat.eqb_eq in Z. destruct (k_formula c); [reflexivity|discriminate].
    + rewrite (read_str_written (length (k_formula c)) (k_formula c)); auto.
      rewrite str_bytes_pad, Nat.sub_diag, app_nil_r by lia. exact H2.
Qed.

Definition text_bytes (l : list (dbl * list N)) : list N :=
  concat (map (fun '(v, s) => le_bytes 8 (bits_of_dbl v) ++ str_bytes 32 s) l).

Lemma text_bytes_length : forall l, length (text_bytes l) = (40 * length l)%nat.
Proof.
  induction l as [|[v s] r IH]; [reflexivity|]. unfold text_bytes in *. cbn [map concat length].
  rewrite !app_length, le_bytes_length, str_bytes_length, IH. lia.
Qed.

Lemma read_texts_at : forall l f p, holds f p (text_bytes l) ->
  Forall (fun e => plain_text (snd e) /\ (length (snd e) <= 32)%nat) l ->
  read_texts (length l) f p = Ok l.
Proof.
  induction l as [|[v s] r IH]; intros f p H F; [reflexivity|].
  unfold text_bytes in H. cbn [map concat] in H. apply holds_app in H as [H1 H2].
  apply holds_app in H1 as [A B]. rewrite app_length, le_bytes_length, str_bytes_length in *.
  inversion F as [|? ? [P L] F']; subst. cbn [length read_texts].
  rewrite (read_num_le _ _ 8 _ A) by (change (256 ^ N.of_nat 8) with (2 ^ 64); apply bits_small).
  cbn [bind]. rewrite (read_str_written 32 s _ _ P L B).
  rewrite (IH f (p + 8 + 32)%nat); auto.
  - cbn [bind]. rewrite bits_round. reflexivity.
  - replace (p + 8 + 32)%nat with (p + (8 + 32))%nat by lia. exact H2.
Qed.

Lemma read_text_table : forall c pads f, (0 < length f)%nat -> k_type c = 11 -> k_ranges c = [] ->
  Forall (fun e => plain_text (snd e) /\ (length (snd e) <= 32)%nat) (k_texts c) ->
  46 + 40 * N.of_nat (length (k_texts c)) < 65536 ->
  exists f' p, write_cc3 c pads f = Ok (f', p) /\
    forall g, read_cc3 (f' ++ g) p = Ok (mkCc3 11 [] [] (k_texts c) []).
Proof.
  intros c pads f NE T R PT LF.
  assert (W : w16 (N.of_nat (length (k_texts c))) = N.of_nat (length (k_texts c))).
  { apply w16_id. lia. }
  assert (TE : cc3_tail c pads [] = le_bytes 2 (N.of_nat (length (k_texts c))) ++ text_bytes (k_texts c)).
  { unfold cc3_tail. rewrite T. cbn [N.eqb Pos.eqb orb]. rewrite W. reflexivity. }
  destruct (cc3_placed c pads f f [] NE) as (f' & p & E & P & _ & K).
  - rewrite T. reflexivity.
  - apply no_ranges. exact R.
  - exists []. rewrite app_nil_r. reflexivity.
  - rewrite TE, app_length, le_bytes_length. lia.
  - rewrite T. discriminate.
  - unfold cc3_size. rewrite T, TE, app_length, le_bytes_length, fixed_length, text_bytes_length.
    cbn [N.eqb Pos.eqb]. lia.
  - exists f', p. split; [exact E|]. intros g. destruct (K g) as [H ->]. rewrite TE in H.
    apply holds_app in H as [H1 H2]. rewrite le_bytes_length in H2.
    rewrite (read_num_le _ _ 2 _ H1) by (change (256 ^ N.of_nat 2) with 65536; lia).
    cbn [bind]. cbv zeta. rewrite T.
    cbn [N.eqb Pos.eqb orb]. rewrite Nat2N.id, (read_texts_at _ _ _ H2 PT). reflexivity.
Qed.

(* ------------------------------------------------------------------ *)
(** ** Parameters *)

Definition params_bytes (l : list (pval * list N)) : list N :=
  concat (map (fun '(v, p) => variant_bytes p v) l).

Lemma variant_length : forall p v, (7 <= length p)%nat -> length (variant_bytes p v) = 16%nat.
Proof.
  intros p v H. unfold variant_bytes. rewrite app_length, le_bytes_length. cbn [length].
  rewrite firstn_length. lia.
Qed.

Lemma read_num_bytes : forall f p bs, holds f p bs ->
  read_num false (length bs) f p = Ok (le_num bs, (p + length bs)%nat).
Proof.
  intros f p bs H. unfold read_num. apply holds_slice in H as [H _]. rewrite H.
  rewrite Nat.ltb_irrefl. reflexivity.
Qed.

(** What is read after a parameter: its index byte and padding, as a double. *)
Definition ghost (v : pval) (pad : list N) : dbl :=
  dbl_of_bits (le_num ((match v with PU _ => 0 | PD _ => 1 end) :: firstn 7 pad)).

(** The parameters read: the true ones and what lies between them, in turn. *)
Fixpoint seen (l : list (dbl * list N)) : list pval :=
  match l with
  | [] => []
  | (d, p) :: r => PD d :: PD (ghost (PD d) p) :: seen r
  end.

Lemma params_length : forall l, Forall (fun e => (7 <= length (snd e))%nat) l ->
  length (params_bytes l) = (16 * length l)%nat.
Proof.
  induction l as [|[v p] r IH]; intros F; [reflexivity|]. inversion F as [|? ? L F']; subst.
  unfold params_bytes in *. cbn [map concat length].
  rewrite app_length, variant_length, IH by auto. lia.
Qed.

Lemma read_dbls_at : forall (l : list (dbl * list N)) n f p,
  holds f p (params_bytes (map (fun '(d, q) => (PD d, q)) l)) ->
  Forall (fun e => (7 <= length (snd e))%nat) l -> (n <= 2 * length l)%nat ->
  exists q, read_dbls n f p = Ok (firstn n (seen l), q).
Proof.
  induction l as [|[d pad] r IH]; intros n f p H F L.
  - cbn [length] in L. replace n with O by lia. exists p. reflexivity.
  - inversion F as [|? ? LP F']; subst. cbn [snd] in LP.
    unfold params_bytes in H. cbn [map concat] in H. apply holds_app in H as [H1 H2].
    rewrite variant_length in H2 by exact LP. unfold variant_bytes in H1.
    apply holds_app in H1 as [A B]. rewrite le_bytes_length in B.
    destruct n as [|n]; [exists p; reflexivity|]. cbn [read_dbls].
    rewrite (read_num_le _ _ 8 _ A) by (change (256 ^ N.of_nat 8) with (2 ^ 64); apply bits_small).
    cbn [bind val_bits]. destruct n as [|n].
    + cbn [read_dbls bind seen firstn]. rewrite bits_round. eexists. reflexivity.
    + cbn [read_dbls].
      pose proof (read_num_bytes _ _ _ B) as RB.
      assert (LB : length (1 :: firstn 7 pad) = 8%nat).
      { cbn [length]. rewrite firstn_length. lia. }
      rewrite LB in RB. rewrite RB. cbn [bind].
      destruct (IH n f (p + 8 + 8)%nat) as [q Q].
      * replace (p + 8 + 8)%nat with (p + 16)%nat by lia. exact H2.
      * exact F'.
      * cbn [length] in L. lia.
      * rewrite Q. cbn [bind seen firstn]. rewrite bits_round. eexists. reflexivity.
Qed.

Definition param_type (t : N) : Prop := t = 0 \/ t = 6 \/ t = 7 \/ t = 8 \/ t = 9.

(** Every conversion with numeric parameters: what is read is the first half of the parameters with
    the bytes between them. *)
Lemma read_params : forall t vals pads f, (0 < length f)%nat -> param_type t ->
  length pads = length vals -> Forall (fun p => (7 <= length p)%nat) pads ->
  46 + 16 * N.of_nat (length vals) < 65536 ->
  exists f' p, write_cc3 (mkCc3 t (map PD vals) [] [] []) pads f = Ok (f', p) /\
    forall g, read_cc3 (f' ++ g) p =
      Ok (mkCc3 t (firstn (length vals) (seen (combine vals pads))) [] [] []).
Proof.
  intros t vals pads f NE T LP FP SZ. set (c := mkCc3 t (map PD vals) [] [] []).
  assert (W : w16 (N.of_nat (length vals)) = N.of_nat (length vals)) by (apply w16_id; lia).
  assert (CE : combine (map PD vals) pads = map (fun '(d, q) => (PD d, q)) (combine vals pads)).
  { clear. revert pads. induction vals as [|v r IH]; intros [|p q]; cbn [map combine]; auto.
    rewrite IH. reflexivity. }
  assert (CL : length (combine vals pads) = length vals) by (rewrite combine_length; lia).
  assert (FC : Forall (fun e : dbl * list N => (7 <= length (snd e))%nat) (combine vals pads)).
  { apply Forall_forall. intros [d q] I. apply in_combine_r in I. rewrite Forall_forall in FP. apply FP; auto. }
  assert (TE : cc3_tail c pads [] = le_bytes 2 (N.of_nat (length vals)) ++
     params_bytes (map (fun '(d, q) => (PD d, q)) (combine vals pads))).
  { unfold cc3_tail, c. cbn [k_type k_vals]. rewrite map_length, W, CE.
    destruct T as [->|[->|[->|[->| ->]]]]; reflexivity. }
  assert (BL : length (params_bytes (map (fun '(d, q) => (PD d, q)) (combine vals pads))) = (16 * length vals)%nat).
  { rewrite params_length.
    - rewrite map_length, CL. reflexivity.
    - apply Forall_forall. intros [d q] I. apply in_map_iff in I as ([d' q'] & E & I). inversion E; subst.
      rewrite Forall_forall in FC. exact (FC _ I). }
  destruct (cc3_placed c pads f f [] NE) as (f' & p & E & P & _ & K).
  - unfold c. cbn [k_type]. destruct T as [->|[->|[->|[->| ->]]]]; reflexivity.
  - reflexivity.
  - exists []. rewrite app_nil_r. reflexivity.
  - rewrite TE, app_length, le_bytes_length. lia.
  - unfold c. cbn [k_type]. destruct T as [->|[->|[->|[->| ->]]]]; discriminate.
  - unfold cc3_size. rewrite TE, app_length, le_bytes_length, fixed_length, BL.
    unfold c. cbn [k_type k_formula length]. destruct (t =? 10); lia.
  - exists f', p. split; [exact E|]. intros g. destruct (K g) as [H ->]. rewrite TE in H.
    apply holds_app in H as [H1 H2]. rewrite le_bytes_length in H2.
    rewrite (read_num_le _ _ 2 _ H1) by (change (256 ^ N.of_nat 2) with 65536; lia).
    cbn [bind]. cbv zeta. rewrite Nat2N.id.
    destruct (read_dbls_at _ (length vals) _ _ H2 FC ltac:(lia)) as [q Q].
    unfold c. cbn [k_type].
    destruct T as [->|[->|[->|[->| ->]]]]; cbn [N.eqb Pos.eqb orb]; rewrite Q; reflexivity.
Qed.

(** The tables of pairs likewise. *)
Lemma read_tables : forall t vals pads f k, (0 < length f)%nat -> t = 1 \/ t = 2 ->
  length vals = (2 * k)%nat ->
  length pads = length vals -> Forall (fun p => (7 <= length p)%nat) pads ->
  46 + 16 * N.of_nat (length vals) < 65536 ->
  exists f' p, write_cc3 (mkCc3 t (map PD vals) [] [] []) pads f = Ok (f', p) /\
    forall g, read_cc3 (f' ++ g) p =
      Ok (mkCc3 t (firstn (length vals) (seen (combine vals pads))) [] [] []).
Proof.
  intros t vals pads f k NE T LK LP FP SZ.
  assert (LD : (length vals / 2 = k)%nat) by (rewrite LK, Nat.mul_comm; apply Nat.div_mul; lia). set (c := mkCc3 t (map PD vals) [] [] []).
  assert (W : w16 (N.of_nat k) = N.of_nat k) by (apply w16_id; lia).
  assert (CE : combine (map PD vals) pads = map (fun '(d, q) => (PD d, q)) (combine vals pads)).
  { clear. revert pads. induction vals as [|v r IH]; intros [|p q]; cbn [map combine]; auto.
    rewrite IH. reflexivity. }
  assert (CL : length (combine vals pads) = length vals) by (rewrite combine_length; lia).
  assert (FC : Forall (fun e : dbl * list N => (7 <= length (snd e))%nat) (combine vals pads)).
  { apply Forall_forall. intros [d q] I. apply in_combine_r in I. rewrite Forall_forall in FP. apply FP; auto. }
  assert (TE : cc3_tail c pads [] = le_bytes 2 (N.of_nat k) ++
     params_bytes (map (fun '(d, q) => (PD d, q)) (combine vals pads))).
  { unfold cc3_tail, c. cbn [k_type k_vals]. rewrite map_length, LD, W, CE.
    destruct T as [-> | ->]; reflexivity. }
  assert (BL : length (params_bytes (map (fun '(d, q) => (PD d, q)) (combine vals pads))) = (16 * length vals)%nat).
  { rewrite params_length.
    - rewrite map_length, CL. reflexivity.
    - apply Forall_forall. intros [d q] I. apply in_map_iff in I as ([d' q'] & E & I). inversion E; subst.
      rewrite Forall_forall in FC. exact (FC _ I). }
  destruct (cc3_placed c pads f f [] NE) as (f' & p & E & P & _ & K).
  - unfold c. cbn [k_type]. destruct T as [-> | ->]; reflexivity.
  - reflexivity.
  - exists []. rewrite app_nil_r. reflexivity.
  - rewrite TE, app_length, le_bytes_length. lia.
  - unfold c. cbn [k_type]. destruct T as [-> | ->]; discriminate.
  - unfold cc3_size. rewrite TE, app_length, le_bytes_length, fixed_length, BL.
    unfold c. cbn [k_type k_formula length]. destruct (t =? 10); lia.
  - exists f', p. split; [exact E|]. intros g. destruct (K g) as [H ->]. rewrite TE in H.
    apply holds_app in H as [H1 H2]. rewrite le_bytes_length in H2.
    rewrite (read_num_le _ _ 2 _ H1) by (change (256 ^ N.of_nat 2) with 65536; lia).
    cbn [bind]. cbv zeta. rewrite Nat2N.id, <- LK.
    destruct (read_dbls_at _ (length vals) _ _ H2 FC ltac:(lia)) as [q Q].
    unfold c. cbn [k_type].
    destruct T as [-> | ->]; cbn [N.eqb Pos.eqb orb]; rewrite Q; reflexivity.
Qed.

Lemma seen_even : forall l i d p, nth_error l i = Some (d, p) -> nth_error (seen l) (2 * i) = Some (PD d).
Proof.
  induction l as [|[d0 p0] r IH]; intros [|i] d p H; try discriminate.
  - cbn in H. inversion H; subst. reflexivity.
  - cbn [nth_error] in H. replace (2 * S i)%nat with (S (S (2 * i))) by lia. cbn [seen nth_error]. eauto.
Qed.

Lemma seen_odd : forall l i d p, nth_error l i = Some (d, p) ->
  nth_error (seen l) (2 * i + 1) = Some (PD (ghost (PD d) p)).
Proof.
  induction l as [|[d0 p0] r IH]; intros [|i] d p H; try discriminate.
  - cbn in H. inversion H; subst. reflexivity.
  - cbn [nth_error] in H. replace (2 * S i + 1)%nat with (S (S (2 * i + 1))) by lia. cbn [seen nth_error]. eauto.
Qed.

(* ------------------------------------------------------------------ *)
(** ** Text ranges *)

Lemma tx3_empty : forall f g, let '(f', p) := write_tx3 false [] f in
  tx3_text false (f' ++ g) p = Ok [].
Proof.
  intros f g. pose proof (tx3_any false [] f ltac:(cbn; lia) g) as H.
  destruct (write_tx3 false [] f) as [f' p]. cbn [fst snd] in H. rewrite H. reflexivity.
Qed.

Lemma tx3_grows : forall s f, let '(f', p) := write_tx3 false s f in
  p = length f /\ exists x, f' = f ++ x /\ (0 < length x)%nat.
Proof.
  intros s f. unfold write_tx3, write_header3. cbn [b_type b_len b_links b_pos].
  rewrite put_end. rewrite <- app_length, put_end. split; [reflexivity|]. rewrite <- app_assoc.
  eexists. split; [reflexivity|]. rewrite app_length, header3_length. lia.
Qed.

(** The text blocks of a range table are empty. *)
Lemma range_texts : forall l f f' ls, (0 < length f)%nat ->
  write_range_texts false l f = (f', ls) ->
  (exists x, f' = f ++ x) /\ length ls = length l /\
  (N.of_nat (length f') < 2 ^ 32 -> Forall (fun k => k < 2 ^ 32 /\
     forall g, (if 0 <? k then tx3_text false (f' ++ g) (N.to_nat k) else Ok []) = Ok []) ls).
Proof.
  induction l as [|[[lo hi] t] r IH]; intros f f' ls NE E.
  - cbn in E. inversion E; subst. split; [exists []; rewrite app_nil_r; reflexivity|].
    split; [reflexivity|]. constructor.
  - cbn [write_range_texts] in E. destruct t as [|a t'].
    + destruct (write_range_texts false r f) as [f1 l1] eqn:E1. inversion E; subst.
      destruct (IH _ _ _ NE E1) as (X & L & R). split; [exact X|]. split; [cbn [length]; lia|].
      intros B. constructor; [split; [reflexivity|reflexivity]|auto].
    + pose proof (tx3_grows [] f) as G. pose proof (tx3_empty f) as T.
      destruct (write_tx3 false [] f) as [f1 p] eqn:W. destruct G as (P & x & X & Lx).
      destruct (write_range_texts false r f1) as [f2 l2] eqn:E2. inversion E; subst f' ls.
      assert (NE1 : (0 < length f1)%nat) by (rewrite X, app_length; lia).
      destruct (IH _ _ _ NE1 E2) as ((y & Y) & L & R).
      split; [exists (x ++ y); rewrite Y, X, app_assoc; reflexivity|]. split; [cbn [length]; lia|].
      intros B. constructor; [|auto].
      assert (PB : N.of_nat p < 2 ^ 32).
      { rewrite Y, X, !app_length in B. lia. }
      unfold w32. rewrite N.mod_small by exact PB. split; [exact PB|]. intros g.
      rewrite Nat2N.id. replace (0 <? N.of_nat p) with true by (symmetry; apply N.ltb_lt; lia).
      rewrite Y, <- app_assoc. apply T.
Qed.

Definition range_bytes (l : list ((dbl * dbl * list N) * N)) : list N :=
  concat (map (fun '((lo, hi, _), k) =>
     le_bytes 8 (bits_of_dbl lo) ++ le_bytes 8 (bits_of_dbl hi) ++ le_bytes 4 k) l).

Lemma range_bytes_length : forall l, length (range_bytes l) = (20 * length l)%nat.
Proof.
  induction l as [|[[[lo hi] t] k] r IH]; [reflexivity|]. unfold range_bytes in *.
  cbn [map concat length]. rewrite !app_length, !le_bytes_length, IH. lia.
Qed.

Lemma read_ranges_at : forall l f p, holds f p (range_bytes l) ->
  Forall (fun e => snd e < 2 ^ 32 /\
    (if 0 <? snd e then tx3_text false f (N.to_nat (snd e)) else Ok []) = Ok []) l ->
  read_ranges (length l) f p = Ok (map (fun '((lo, hi, _), _) => (lo, hi, [])) l).
Proof.
  induction l as [|[[[lo hi] t] k] r IH]; intros f p H F; [reflexivity|].
  unfold range_bytes in H. cbn [map concat] in H. apply holds_app in H as [H1 H2].
  apply holds_app in H1 as [A H1]. apply holds_app in H1 as [B C].
  rewrite !app_length, !le_bytes_length in *. inversion F as [|? ? [K1 K2] F']; subst.
  cbn [snd] in *. cbn [length read_ranges map].
  rewrite (read_num_le _ _ 8 _ A) by (change (256 ^ N.of_nat 8) with (2 ^ 64); apply bits_small).
  cbn [bind].
  rewrite (read_num_le _ _ 8 _ B) by (change (256 ^ N.of_nat 8) with (2 ^ 64); apply bits_small).
  cbn [bind]. rewrite (read_num_le _ _ 4 _ C) by exact K1. cbn [bind].
  rewrite (IH f (p + 8 + 8 + 4)%nat); auto.
  - cbn [bind]. rewrite K2. cbn [bind]. rewrite !bits_round. reflexivity.
  - replace (p + 8 + 8 + 4)%nat with (p + (8 + (8 + 4)))%nat by lia. exact H2.
Qed.

(** The bounds survive, every text is lost. *)
Lemma read_text_ranges : forall ranges pads f, (0 < length f)%nat ->
  46 + 20 * N.of_nat (length ranges) < 65536 ->
  exists f' p, write_cc3 (mkCc3 12 [] [] [] ranges) pads f = Ok (f', p) /\
    (N.of_nat (length f') < 2 ^ 32 ->
     forall g, read_cc3 (f' ++ g) p =
      Ok (mkCc3 12 [] [] [] (map (fun '(lo, hi, _) => (lo, hi, [])) ranges))).
Proof.
  intros ranges pads f NE SZ. set (c := mkCc3 12 [] [] [] ranges).
  destruct (write_range_texts false ranges f) as [f1 ls] eqn:E1.
  destruct (range_texts _ _ _ _ NE E1) as (X & L & R).
  assert (W : w16 (N.of_nat (length ranges)) = N.of_nat (length ranges)) by (apply w16_id; lia).
  assert (TE : cc3_tail c pads ls = le_bytes 2 (N.of_nat (length ranges)) ++ range_bytes (combine ranges ls)).
  { unfold cc3_tail, c. cbn [k_type k_ranges N.eqb Pos.eqb orb]. rewrite W. reflexivity. }
  assert (CL : length (combine ranges ls) = length ranges) by (rewrite combine_length; lia).
  destruct (cc3_placed c pads f f1 ls NE) as (f' & p & E & P & (y & Y) & K).
  - reflexivity.
  - exact E1.
  - exact X.
  - rewrite TE, app_length, le_bytes_length. lia.
  - discriminate.
  - unfold cc3_size. rewrite TE, app_length, le_bytes_length, fixed_length, range_bytes_length, CL.
    unfold c. cbn [k_type N.eqb Pos.eqb]. lia.
  - exists f', p. split; [exact E|]. intros BL g. destruct (K g) as [H ->]. rewrite TE in H.
    apply holds_app in H as [H1 H2]. rewrite le_bytes_length in H2.
    rewrite (read_num_le _ _ 2 _ H1) by (change (256 ^ N.of_nat 2) with 65536; lia).
    cbn [bind]. cbv zeta. rewrite Nat2N.id. unfold c. cbn [k_type N.eqb Pos.eqb orb].
    assert (BL1 : N.of_nat (length f1) < 2 ^ 32) by (rewrite Y, app_length in BL; lia).
    specialize (R BL1). rewrite <- CL. rewrite (read_ranges_at _ _ _ H2).
    + cbn [bind]. f_equal. f_equal. clear - L. revert ls L.
      induction ranges as [|[[lo hi] t] r IH]; intros [|k ls] L; try discriminate; [reflexivity|].
      cbn [combine map]. f_equal. apply IH. cbn [length] in L. lia.
    + apply Forall_forall. intros [e k] I. apply in_combine_r in I. rewrite Forall_forall in R.
      destruct (R k I) as [R1 R2]. cbn [snd]. split; [exact R1|].
      specialize (R2 (y ++ g)). rewrite app_assoc, <- Y in R2. exact R2.
Qed.
