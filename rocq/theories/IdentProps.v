(** C67, C68: the identification block, whole files and the finalized mark. *)
From Verif Require Import Base BlockModel BlockSpec BlockProofs BlockProofs4 MetaModel MetaSpec MetaProofs MetaProps
  IdentModel IdentSpec IdentProofs.
Local Open Scope N_scope.

(* ------------------------------------------------------------------ *)
(** ** C67: files *)

(** The identification block is read back as it was written, without the white space around its
    texts, whatever the file held before and whatever follows. *)
Theorem C67_id : forall d f g, id_texts d -> id_numbers d ->
  read_id (write_id false d f ++ g) = Ok (id_trimmed d).
Proof.
  intros d f g T NU. apply read_id_holds; auto. apply holds_ext. apply write_id_holds.
Qed.
Print Assumptions C67_id.

(** A whole file that was written is recognised, opened by the class of its version, and gives the
    identification and the description of the measurement, also after more has been appended. *)
Theorem C67_file : forall d h, id_texts d -> id_numbers d -> i_file d = txt_mdf \/ i_file d = txt_unfin ->
  400 <= i_version d -> hd_ok h -> exists enough, forall fuel, (enough <= fuel)%nat ->
  exists f' b, write_file d h [] = Ok (f', b) /\ forall g, g <> [] \/ (64 < length f')%nat ->
    is_mdf_file (f' ++ g) = true /\ file_class (f' ++ g) = Ok Mdf4 /\
    (N.of_nat (length f') < 2 ^ 63 -> read_file fuel (f' ++ g) = Ok (id_trimmed d, hd_form h)).
Proof.
  intros d h T NU F V OK. destruct (file_written d h OK) as [n H]. exists n. intros fuel L.
  destruct (H fuel L) as (f' & b & E & HI & LF & R). clear H. exists f', b. split; [exact E|].
  intros g NE.
  assert (RI : read_id (f' ++ g) = Ok (id_trimmed d)) by (apply read_id_holds; auto; apply holds_ext; auto).
  split; [|split].
  - unfold is_mdf_file. apply andb_true_intro. split.
    + rewrite app_length. destruct NE as [NE|NE]; [|lia]. destruct g; [congruence|cbn [length]; lia].
    + unfold is_mdf. rewrite RI. unfold id_trimmed. cbn [i_file]. destruct F as [-> | ->]; reflexivity.
  - unfold file_class. rewrite RI. unfold id_trimmed. cbn [bind i_version]. apply N.leb_le in V. rewrite V. reflexivity.
  - intros B. unfold read_file. rewrite RI. cbn [bind]. rewrite R; auto.
    intros i I. apply nth_error_app1. lia.
Qed.
Print Assumptions C67_file.

(** A file of another version is opened by the other class. *)
Theorem C67_class : forall d f g, id_texts d -> id_numbers d ->
  file_class (write_id false d f ++ g) = Ok (if 400 <=? i_version d then Mdf4 else Mdf3).
Proof. intros d f g T NU. unfold file_class. rewrite C67_id by auto. reflexivity. Qed.
Print Assumptions C67_class.

(** Only files of more than 64 bytes whose first word starts with M, m, U or u are taken for MDF files. *)
Theorem C67_only : forall f, is_mdf_file f = true -> (64 < length f)%nat /\
  exists a c r, firstn 8 f = a ++ c :: r /\ Forall (fun x => is_space x = true) a /\
    In c [77; 109; 85; 117].
Proof.
  intros f H. unfold is_mdf_file in H. apply andb_prop in H. destruct H as [L H].
  assert (B : (64 < length f)%nat) by lia. clear L. split; auto. unfold is_mdf in H.
  destruct (read_id f) as [d| |] eqn:E; try discriminate.
  assert (ID : i_file d = trim (cut (firstn 8 f))).
  { assert (L8 : length (firstn 8 f) = 8%nat) by (rewrite firstn_length; lia).
    assert (HH : holds f 0 (firstn 8 f)).
    { split; [lia|]. intros i I. cbn [Nat.add]. symmetry. apply nth_error_firstn'. lia. }
    apply read_chars_cut in HH. rewrite L8 in HH. revert E. unfold read_id.
    unfold read_str at 1. rewrite HH. cbn [read_str].
    repeat match goal with
           | |- context [read_str ?n ?f ?p] => unfold read_str
           | |- context [bind (read_num ?b ?n ?f ?p) _] => destruct (read_num b n f p) as [[? ?]| |]; cbn [bind]; try discriminate
           end.
    intros E. inversion E. reflexivity. }
  destruct (trim_spec (cut (firstn 8 f))) as (a & b & Q & SA & _ & _).
  assert (C : exists t, firstn 8 f = cut (firstn 8 f) ++ t).
  { generalize (firstn 8 f). induction l as [|x l IH]; [exists []; reflexivity|].
    destruct x as [|x]; [exists (0 :: l); reflexivity|]. destruct IH as [t IH]. exists t. cbn [cut app N.eqb]. f_equal. exact IH. }
  destruct C as [t C]. rewrite <- ID in Q.
  assert (exists c r, i_file d = c :: r /\ In c [77; 109; 85; 117]) as (c & r & F & I).
  { assert (LC : forall a c, lower a = lower c -> lower c = 109 -> a = 77 \/ a = 109).
    { intros x y X Y. rewrite Y in X. revert X. unfold lower. destruct ((65 <=? x) && (x <=? 90)) eqn:K; intros X; lia. }
    assert (LU : forall a, lower a = 117 -> a = 85 \/ a = 117).
    { intros x X. revert X. unfold lower. destruct ((65 <=? x) && (x <=? 90)) eqn:K; intros X; lia. }
    destruct (i_file d) as [|c r]; [discriminate|]. exists c, r. split; auto.
    apply orb_prop in H. destruct H as [H|H]; cbn [starts_nocase] in H; apply andb_prop in H; destruct H as [H _];
      apply N.eqb_eq in H.
    - destruct (LC c 77 (eq_sym H) eq_refl) as [-> | ->]; cbn; auto.
    - destruct (LU c (eq_sym H)) as [-> | ->]; cbn; auto. }
  exists a, c, (r ++ b ++ t). split; [|auto]. rewrite C, Q, F. rewrite <- !app_assoc. reflexivity.
Qed.
Print Assumptions C67_only.

(** Whatever minor version is set, the number in the block and the version text agree, and the main
    version is kept; from 10 to 99 it is the minor version that was set. *)
Theorem C67_minor : forall m d d', minor_version m d = Ok d' -> i_format d <> [] ->
  main_version (i_format d') = main_version (i_format d) /\
  i_version d' = 100 * main_version (i_format d') + minor_number (i_format d') /\
  i_version d' < 2 ^ 16 /\ (length (i_format d') <= 4)%nat /\ ~ In 0 (i_format d') /\
  ((10 <= m < 100)%Z -> Z.of_N (minor_number (i_format d')) = m) /\ (m = 0%Z -> minor_number (i_format d') = 0).
Proof.
  intros m d d' E NE. unfold minor_version, stoi1 in E. destruct (i_format d) as [|c r] eqn:F; [congruence|].
  destruct ((48 <=? c) && (c <=? 57)) eqn:D; [|discriminate]. cbn [bind] in E.
  set (k := if (m <=? 0)%Z then 0 else _) in E.
  assert (K : k < 100 /\ ((10 <= m < 100)%Z -> Z.of_N k = m) /\ (m = 0%Z -> k = 0)).
  { unfold k. destruct (m <=? 0)%Z eqn:M1; [lia|]. destruct (m <? 10)%Z eqn:M2; [lia|].
    destruct (m <? 100)%Z eqn:M3; [lia|]. lia. }
  clearbody k. destruct K as (K1 & K2 & K3). match type of E with Ok ?x = _ => assert (Q : d' = x) by congruence end. subst d'. clear E. cbn [i_format i_version main_version app].
  assert (C1 : main_version (c :: r) = c - 48) by (cbn [main_version]; rewrite D; reflexivity).
  cbn [main_version] in C1. rewrite D in *.
  assert (C2 : ((48 <=? 48 + (c - 48)) && (48 + (c - 48) <=? 57)) = true) by lia. rewrite C2.
  assert (MN : minor_number ((48 + (c - 48)) :: 46 :: (if k =? 0 then [48; 48] else digits2 k)) = k /\
    (length (if k =? 0 then [48; 48] else digits2 k)%N <= 2)%nat /\ ~ In 0 (if k =? 0 then [48; 48] else digits2 k)).
  { unfold minor_number. cbn [skipn]. destruct (k =? 0) eqn:Z0.
    - apply N.eqb_eq in Z0. subst. split; [reflexivity|]. split; [cbn; lia|]. intros [X|[X|[]]]; discriminate.
    - unfold digits2. destruct (k <? 10) eqn:T.
      + split; [|split; [cbn; lia|intros [X|[]]; lia]]. cbn [digits_num].
        replace ((48 <=? 48 + k) && (48 + k <=? 57)) with true by lia. lia.
      + assert (k / 10 < 10) by (apply N.div_lt_upper_bound; lia). assert (k mod 10 < 10) by (apply N.mod_lt; discriminate).
        pose proof (N.div_mod k 10 ltac:(discriminate)) as DM.
        set (q := k / 10) in *. set (x := k mod 10) in *. clearbody q x.
        split; [|split; [cbn; lia|intros [X|[X|[]]]; lia]]. cbn [digits_num].
        replace ((48 <=? 48 + q) && (48 + q <=? 57)) with true by lia.
        replace ((48 <=? 48 + x) && (48 + x <=? 57)) with true by lia. lia. }
  destruct MN as (MN & ML & MZ). rewrite MN.
  assert (W : w16 (100 * (c - 48) + k) = 100 * (c - 48) + k) by (unfold w16; apply N.mod_small; lia).
  rewrite W. split; [lia|]. split; [lia|]. split; [lia|]. split; [cbn [length]; lia|].
  split; [intros [X|[X|X]]; [lia|discriminate|auto]|]. split; auto.
Qed.
Print Assumptions C67_minor.

(** The version text does not always have two digits after the point, as the format asks for. *)
Theorem C67_two_digits_refuted : exists d', minor_version 105 new_id = Ok d' /\ i_format d' = [52; 46; 53] /\
  i_version d' = 405.
Proof. eexists. split; [reflexivity|]. split; reflexivity. Qed.
Print Assumptions C67_two_digits_refuted.

Example C67_witness : id_texts new_id /\ id_numbers new_id /\ id_texts new_id3 /\ id_numbers new_id3 /\ hd_ok meas1 /\
  id_trimmed new_id = mkId [77; 68; 70] [52; 46; 50; 48] txt_program 0 0 420 0 0 0 /\
  exists f' b, write_file new_id meas1 [] = Ok (f', b) /\ is_mdf_file (f' ++ [1]) = true /\
    read_file 5 (f' ++ [1]) = Ok (id_trimmed new_id, hd_form meas1).
Proof.
  assert (T : forall d, i_file d = txt_mdf -> i_program d = txt_program -> ~ In 0 (i_format d) -> (length (i_format d) <= 8)%nat ->
    id_texts d).
  { intros d A B C D. unfold id_texts. rewrite A, B.
    constructor; [|constructor; [auto|constructor; [|constructor]]];
      (split; [intros X; cbn in X; decompose [or] X; auto; discriminate|cbn; lia]). }
  split; [apply T; try reflexivity; [intros X; cbn in X; decompose [or] X; auto; discriminate|cbn; lia]|].
  split; [split; [reflexivity|repeat constructor]|].
  split; [apply T; try reflexivity; [intros X; cbn in X; decompose [or] X; auto; discriminate|cbn; lia]|].
  split; [split; [reflexivity|repeat constructor]|]. split; [apply meas1_ok|]. split; [reflexivity|].
  remember (write_file new_id meas1 []) as w eqn:E. vm_compute in E. subst w. eexists _, _. split; [reflexivity|].
  split; [vm_compute; reflexivity|]. vm_compute. reflexivity.
Qed.

(* ------------------------------------------------------------------ *)
(** ** C68: the finalized mark *)

(** Marking a file as finalized or not changes only the mark; a reader finds the mark and the flags,
    and the same description of the measurement. *)
Theorem C68_mark : forall fin st cu d h, id_texts d -> id_numbers d -> st < 2 ^ 16 -> cu < 2 ^ 16 -> hd_ok h ->
  exists enough, forall fuel, (enough <= fuel)%nat ->
  exists f' b, write_file d h [] = Ok (f', b) /\
    forall data, let g := mark_file true fin st cu d (f' ++ data) in
    same_but_mark (f' ++ data) g /\
    exists e, read_id g = Ok e /\ is_finalized e = fin /\
      i_standard e = (if fin then 0 else st) /\ i_custom e = (if fin then 0 else cu) /\
      i_version e = i_version d /\ i_format e = trim (i_format d) /\ is_mdf g = true /\
      (N.of_nat (length f') < 2 ^ 63 -> read_hd fuel g 64 = Ok (hd_form h)).
Proof.
  intros fin st cu d h T NU BS BC OK. destruct (file_written d h OK) as [n H]. exists n. intros fuel L.
  destruct (H fuel L) as (f' & b & E & HI & LF & R). clear H. exists f', b. split; [exact E|]. intros data g.
  destruct (mark_holds fin st cu d (f' ++ data)) as [MH MS]; [apply holds_ext; exact HI|]. fold g in MH, MS.
  split; [exact MS|]. exists (id_trimmed (mark_id fin st cu d)).
  assert (RI : read_id g = Ok (id_trimmed (mark_id fin st cu d))).
  { apply read_id_holds; auto.
    - inversion T as [|? ? _ T1]; subst. unfold id_texts, mark_id. cbn [i_file i_format i_program].
      constructor; [|exact T1]. destruct fin; split; try (cbn; lia); intros X; cbn in X; decompose [or] X; auto; discriminate.
    - destruct NU as [O NU]. split; [exact O|]. unfold mark_id. cbn [i_float i_version i_code i_standard i_custom].
      inversion NU as [|? ? D1 N1]; subst. inversion N1 as [|? ? D2 N2]; subst. inversion N2 as [|? ? D3 _]; subst.
      destruct fin; repeat constructor; auto. }
  split; [exact RI|]. unfold id_trimmed, mark_id. cbn [i_file i_standard i_custom i_version i_format].
  split; [destruct fin; reflexivity|]. split; [reflexivity|]. split; [reflexivity|]. split; [reflexivity|].
  split; [reflexivity|]. split.
  - unfold is_mdf. rewrite RI. unfold id_trimmed, mark_id. cbn [i_file]. destruct fin; reflexivity.
  - intros B. apply R; auto. intros i I. destruct MS as [_ MS].
    rewrite MS by (unfold mark_position; lia). apply nth_error_app1. lia.
Qed.
Print Assumptions C68_mark.

(** Marking a file as finalized again undoes the first mark. *)
Theorem C68_undone : forall st cu d f, holds f 0 (id_bytes d) -> i_file d = txt_mdf -> i_standard d = 0 -> i_custom d = 0 ->
  mark_file true true 0 0 (mark_id false st cu d) (mark_file true false st cu d f) = f.
Proof.
  intros st cu d f H F S0 C0. destruct (mark_holds false st cu d f H) as [H1 [L1 S1]].
  destruct (mark_holds true 0 0 _ _ H1) as [H2 [L2 S2]].
  set (g := mark_file true true 0 0 _ _) in *.
  assert (E : mark_id true 0 0 (mark_id false st cu d) = d).
  { destruct d. cbn in F, S0, C0. subst. reflexivity. }
  rewrite E in H2. apply nth_error_ext_N; [lia|]. intros i.
  destruct (Nat.lt_ge_cases i 64) as [I|I].
  - destruct H as [_ H], H2 as [_ H2]. rewrite id_bytes_length in H, H2.
    specialize (H i I). specialize (H2 i I). cbn [Nat.add] in H, H2. congruence.
  - rewrite S2, S1 by (unfold mark_position; lia). reflexivity.
Qed.
Print Assumptions C68_undone.

(** The writer never marks the file it works on: whatever is appended or changed behind the
    identification block, an interrupted measurement is taken for a finalized file, with no work left
    to do. *)
Theorem C68_unfinished_refuted : forall h, hd_ok h -> exists f' b, write_file new_id h [] = Ok (f', b) /\
  forall g, (length f' <= length g)%nat -> (forall i, (i < 64)%nat -> nth_error g i = nth_error f' i) ->
  exists d, read_id g = Ok d /\ is_finalized d = true /\ i_standard d = 0.
Proof.
  intros h OK. destruct (file_written new_id h OK) as [n H].
  destruct (H n (le_n n)) as (f' & b & E & HI & LF & _). clear H. exists f', b. split; [exact E|]. intros g LG S.
  exists (id_trimmed new_id). split; [|split; reflexivity].
  destruct C67_witness as (T & NU & _). apply read_id_holds; auto.
  destruct HI as [A B]. rewrite id_bytes_length in *. split; [rewrite id_bytes_length; lia|].
  intros i I. rewrite id_bytes_length in I. rewrite <- B by exact I. apply S. exact I.
Qed.
Print Assumptions C68_unfinished_refuted.

Example C68_witness : exists f', write_id false new_id [] = f' /\
  mark_file true false 5 0 new_id (f' ++ [1]) <> f' ++ [1] /\
  option_map is_finalized (match read_id (mark_file true false 5 0 new_id (f' ++ [1])) with Ok d => Some d | _ => None end) = Some false.
Proof.
  eexists. split; [reflexivity|]. split; [|vm_compute; reflexivity].
  vm_compute. discriminate.
Qed.
