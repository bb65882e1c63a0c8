(** Running the statements of a ToRaw function and reading the record it leaves: lemmas and tactics
    shared by the proofs about bus messages. *)
From Verif Require Import Base ChannelModel ChannelSpec QueueModel BusModel BusSpec BusProofs BusBits.
Local Open Scope N_scope.

Lemma poke_app : forall a x v b, poke (length a) v (a ++ x :: b) = Ok (a ++ v :: b).
Proof.
  induction a as [|y a IH]; intros x v b; cbn [length app poke]; [reflexivity|].
  rewrite IH. reflexivity.
Qed.

Lemma put_index_tail : forall a t, length t = 8%nat -> bytes_ok (a ++ t) ->
  put_num 64 0 (length a) (a ++ t) = Ok (a ++ repeat 0 8).
Proof.
  intros a t Ht Hok. change 64 with (8 * N.of_nat 8).
  rewrite put_num_bytes by (try lia; auto; rewrite app_length; lia).
  rewrite copy_at_splice by (rewrite le_bytes_length, app_length; lia).
  unfold splice. rewrite firstn_app, firstn_all, Nat.sub_diag. cbn [firstn].
  rewrite skipn_all2 by (rewrite le_bytes_length, app_length; lia).
  rewrite !app_nil_r. reflexivity.
Qed.

Lemma patch_end : forall a idx, patch_index (a ++ repeat 0 8) idx = a ++ le_bytes 8 (w64 idx).
Proof.
  intros a idx. unfold patch_index. rewrite app_length, repeat_length.
  rewrite (proj2 (Nat.leb_le _ _)) by lia.
  replace (length a + 8 - 8)%nat with (length a) by lia.
  rewrite firstn_app, firstn_all, Nat.sub_diag. cbn [firstn]. rewrite app_nil_r. reflexivity.
Qed.

Lemma slice_end : forall a b n, length b = n -> slice (length a) n (a ++ b) = b.
Proof.
  intros a b n <-. unfold slice. rewrite skipn_app, skipn_all, Nat.sub_diag. cbn [skipn app].
  apply firstn_all.
Qed.

Lemma put_num_4 : forall v base rec, bytes_ok rec -> (base + 4 <= length rec)%nat ->
  put_num 32 v base rec = copy_at base (le_bytes 4 v) rec.
Proof. intros v base rec H1 H2. exact (put_num_bytes 4 v base rec H1 ltac:(lia) H2). Qed.

Lemma put_num_2 : forall v base rec, bytes_ok rec -> (base + 2 <= length rec)%nat ->
  put_num 16 v base rec = copy_at base (le_bytes 2 v) rec.
Proof. intros v base rec H1 H2. exact (put_num_bytes 2 v base rec H1 ltac:(lia) H2). Qed.

Ltac bus_step :=
  cbn [run do_resize bind poke poke_or peek nth_error copy_num copy_at le_bytes plain app].

Ltac split_bytes :=
  repeat match goal with Hrok: Forall byte_ok (_ :: _) |- _ =>
         let H1 := fresh "Hb" in pose proof (Forall_inv Hrok) as H1;
         apply Forall_inv_tail in Hrok end.

(** Runs one statement. *)
Lemma run_step : forall (s : stmt) l rec rec', s rec = Ok rec' -> run (s :: l) rec = run l rec'.
Proof. intros s l rec rec' H. cbn [run]. rewrite H. reflexivity. Qed.

(** A list of at least n elements as its first n elements and the rest. *)
Lemma split_list : forall (r : list N) n k, length r = (n + k)%nat ->
  exists a t, r = a ++ t /\ length a = n /\ length t = k.
Proof.
  intros r n k H. exists (firstn n r), (skipn n r).
  rewrite firstn_skipn, firstn_length, skipn_length. repeat split; lia.
Qed.

Lemma resize_facts : forall n rec0, bytes_ok rec0 -> (8 <= length rec0)%nat -> (8 <= n)%nat ->
  exists r, resize n rec0 = r /\ length r = n /\ bytes_ok r /\ firstn 8 r = firstn 8 rec0.
Proof.
  intros n rec0 Hok Hl Hn. exists (resize n rec0). rewrite resize_length. repeat split; auto.
  - apply resize_ok; auto.
  - apply resize_first; auto.
Qed.

(** Runs the statements one by one; the first one, a resize to the length of the exploded list, is
    done by [resize_facts]. *)
Ltac bus_run := repeat (erewrite run_step; [| solve [bus_step; reflexivity]]); cbn [run].

Lemma b2n_ok : forall b, byte_ok (b2n b).
Proof. intros []; reflexivity. Qed.

(** Every byte of an explicit list is a byte. *)
Ltac bus_bytes side :=
  unfold bytes_ok;
  repeat (apply Forall_cons; [first [assumption | apply w8_ok | apply mod_ok | apply b2n_ok | side]|]);
  first [assumption | apply Forall_nil | apply le_bytes_ok].

(** The channels of a list, one goal for each. *)
Ltac bus_each Hin :=
  repeat match goal with H: _ \/ _ |- _ => destruct H as [H|H] end; try contradiction.

(** MdfHelper::UnsignedToRaw of a number on an explicit list. *)
Ltac put_step side :=
  match goal with |- put_num ?len ?v ?base ?rec = _ =>
    let m := eval vm_compute in (N.to_nat ((len + 7) / 8)) in
    let whole := eval vm_compute in (len =? 8 * N.of_nat m) in
    match whole with
    | true => change len with (8 * N.of_nat m);
              rewrite (put_num_bytes m v base rec);
              [ bus_step; reflexivity | bus_bytes side | apply Nat.leb_le; reflexivity
              | apply Nat.leb_le; reflexivity ]
    | false => rewrite (put_num_splice len v base rec m);
               [ cbn [splice firstn skipn length app le_bytes Nat.add]; reflexivity
               | bus_bytes side | discriminate | discriminate | apply Nat.leb_le; reflexivity ]
    end
  end.

(** Runs the statements, some of them with UnsignedToRaw. *)
Ltac bus_run_num side :=
  repeat match goal with
  | |- context [run (put_num _ _ _ :: _) _] =>
      erewrite run_step; [| solve [put_step side]]
  | |- context [run (_ :: _) _] => erewrite run_step; [| solve [bus_step; reflexivity]]
  end; cbn [run].

(** Part of a number of whole bytes. *)
Lemma read_low : forall f2d data rec byte n o m v w,
  bytes_ok rec -> N.of_nat (length rec) < 2 ^ 28 ->
  byte = N.of_nat o -> n <= 8 * N.of_nat m -> 1 <= n <= 64 -> (o + m <= length rec)%nat ->
  slice o m rec = le_bytes m v -> v mod 2 ^ n = w ->
  read_content f2d data (bits_channel byte 0 n) rec = Ok (num w).
Proof.
  intros f2d data rec byte n o m v w Hok Hl Hb Hn Hr Hm Hs <-.
  rewrite (read_bits f2d data rec byte 0 n o m) by (auto; lia).
  rewrite Hs, le_num_bytes, N.pow_0_r, N.div_1_r. do 2 f_equal.
  change 256 with (2 ^ 8). rewrite <- N.pow_mul_r.
  replace (8 * N.of_nat m) with (n + (8 * N.of_nat m - n)) by lia.
  rewrite N.pow_add_r. pose proof (pow2_pos n). pose proof (pow2_pos (8 * N.of_nat m - n)).
  rewrite N.mod_mul_r by lia. rewrite N.mul_comm, N.mod_add by lia. apply N.mod_mod. lia.
Qed.

Lemma merged_low : forall n v old, v < 2 ^ n -> merged n v old mod 2 ^ n = v.
Proof.
  intros n v old H. unfold merged. pose proof (pow2_pos n).
  rewrite (N.mul_comm (2 ^ n)), N.mod_add, N.mod_mod by lia. apply N.mod_small; auto.
Qed.

(** The position is inside the record. *)
Ltac bus_len :=
  first [ lia | apply Nat.ltb_lt; reflexivity | apply Nat.leb_le; reflexivity ].

(** Numbers of whole bytes written by copy_num, parts of bytes, fixed byte arrays. Leaves the
    arithmetic on parts of bytes. [side] proves that the number fits. *)
Ltac bus_read side :=
  match goal with
  | |- read_content ?f2d ?data bus_channel ?R = _ => unfold bus_channel; bus_read side
  | |- read_content ?f2d ?data (bit_channel ?b ?bit) ?R = Ok (flag _) =>
      rewrite flag_num; unfold bit_channel; bus_read side
  | |- read_content ?f2d ?data (bit_channel ?b ?bit) ?R = _ => unfold bit_channel; bus_read side
  | |- read_content ?f2d ?data (bits_channel ?b ?bit ?n) ?R = Ok (flag _) =>
      rewrite flag_num; bus_read side
  | |- read_content ?f2d ?data (bytes_channel ?b ?n) ?R = _ =>
      let o := eval vm_compute in (N.to_nat b) in
      let k := eval vm_compute in (N.to_nat n) in
      rewrite (read_bytes f2d data R (bytes_channel b n) b n o k);
      [reflexivity | left; reflexivity | assumption | reflexivity | reflexivity | bus_len]
  | |- read_content ?f2d ?data (vlsd_channel ?b) ?R = Ok (Bytes ?p) =>
      let o := eval vm_compute in (N.to_nat b) in
      match goal with H: sd_holds data ?idx _ |- _ =>
        apply (read_vlsd f2d data R b o idx p);
        [assumption | assumption | reflexivity | bus_len | reflexivity | assumption]
      end
  | |- read_content ?f2d ?data (bits_channel ?b ?bit ?n) ?R = _ =>
      let o := eval vm_compute in (N.to_nat b) in
      let small := eval vm_compute in (bit + n <=? 8) in
      match small with
      | true =>
          eapply (read_part f2d data R b bit n o);
          [assumption | assumption | reflexivity | discriminate | discriminate |
           bus_len | reflexivity | ]
      | false =>
          let k := eval vm_compute in (N.to_nat ((n + 7) / 8)) in
          let whole := eval vm_compute in (n =? 8 * N.of_nat k) in
          match whole with
          | false =>
              eapply (read_low f2d data R b n o k);
              [assumption | assumption | reflexivity | discriminate | split; discriminate |
               bus_len | reflexivity | ]
          | true =>
          apply (read_num f2d data R b n o k);
          [assumption | assumption | reflexivity | reflexivity | split; discriminate |
           bus_len | reflexivity | side]
          end
      end
  end.

(** A stored record: the time stamp is kept, the length is right and every channel yields its
    content. *)
Definition good {F : Type} (f2d : N -> N) (data : list N) (want : F -> content)
  (l : list (F * chan)) (first : list N) (n : nat) (R : list N) : Prop :=
  firstn 8 R = first /\ length R = n /\
  forall f c, In (f, c) l -> read_content f2d data c R = Ok (want f).

Lemma good_intro : forall {F : Type} f2d data (want : F -> content) l first n R,
  bytes_ok R -> firstn 8 R = first -> length R = n -> N.of_nat (length R) < 2 ^ 28 ->
  (bytes_ok R -> N.of_nat (length R) < 2 ^ 28 ->
   Forall (fun p => read_content f2d data (snd p) R = Ok (want (fst p))) l) ->
  good f2d data want l first n R.
Proof.
  intros F f2d data want l first n R H1 H2 H3 H4 H5. split; [exact H2|]. split; [exact H3|].
  intros f c Hin. specialize (H5 H1 H4). rewrite Forall_forall in H5. exact (H5 _ Hin).
Qed.

(** A record with variable length data, as the bytes before the index and the index. *)
Ltac split_index :=
  match goal with |- context [stored (mkRaw ?R true ?d) ?idx] =>
    let n := eval vm_compute in (length R - 8)%nat in
    let a := eval cbn [firstn] in (firstn n R) in
    change (stored (mkRaw R true d) idx) with (a ++ le_bytes 8 (w64 idx))
  end.

Ltac fits := first [assumption | eapply N.lt_trans; [eassumption|reflexivity]].

(** All channels of a record; leaves the arithmetic on parts of bytes. *)
Ltac bus_good side :=
  first [split_index | unfold stored; cbn [r_vlsd r_rec]];
  apply good_intro;
  [ cbn [app le_bytes]; bus_bytes side | reflexivity | reflexivity | reflexivity |];
  let HR := fresh "HR" in let HL := fresh "HL" in intros HR HL;
  repeat (apply Forall_cons; [cbn [fst snd]|]); try apply Forall_nil.
