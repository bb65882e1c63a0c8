(** Properties C27 to C33: blocks in a file, links, lists and texts.
    Vocabulary: BlockSpec.v. Model: BlockModel.v. *)
From Verif Require Import Base BlockModel BlockSpec BlockProofs BlockProofs2 BlockProofs3 BlockProofs4.
Local Open Scope N_scope.

Lemma block_at_header : forall f pos ty len links body, length ty = 4%nat ->
  block_at f pos ty len links body <-> holds f pos (header_bytes ty len links ++ body).
Proof.
  intros f pos ty len links body L. unfold block_at, header_bytes.
  rewrite str_bytes_pad by lia. rewrite L. cbn [Nat.sub repeat]. rewrite app_nil_r, <- !app_assoc. reflexivity.
Qed.

(* ------------------------------------------------------------------ *)
(** ** C27 *)

(** A block that is written is read back with its identifier, its links and its fields, also after
    the file has grown. The length stored is the true length. *)
Theorem C27_block_round_trip : forall ty len links body f,
  type_ok 4 ty -> Forall (fun l => l < 2 ^ 64) links -> (0 < length f)%nat ->
  N.of_nat (24 + 8 * length links + length body) < 2 ^ 64 ->
  exists f' b, write_block4 ty len links body f = Ok (f', b) /\
    b_type b = ty /\ b_links b = links /\ b_len b = N.of_nat (24 + 8 * length links + length body) /\
    forall g, exists p, read_header4 (f' ++ g) (b_pos b) = Ok (b, p) /\
      slice p (N.to_nat (b_len b) - (24 + 8 * length links)) (f' ++ g) = body.
Proof. exact block_round_trip. Qed.
Print Assumptions C27_block_round_trip.

(** Any block laid out as the standard says is read as such. *)
Theorem C27_read : forall f pos ty len links body,
  block_at f pos ty len links body -> type_ok 4 ty -> len < 2 ^ 64 ->
  N.of_nat (length links) < 2 ^ 64 -> Forall (fun l => l < 2 ^ 64) links ->
  exists p, read_header4 f pos = Ok (mkB pos ty len links, p) /\ slice p (length body) f = body.
Proof.
  intros f pos ty len links body H T B BL F. pose proof T as (LT & _).
  apply block_at_header in H; auto. apply holds_app in H as [H1 H2].
  eexists. split; [apply read_header4_at; eauto; [eapply type_plain; eauto|lia]|].
  rewrite header_bytes_length in H2. apply holds_slice in H2 as [H2 _]. exact H2.
Qed.
Print Assumptions C27_read.

(** MDF3: both byte orders. *)
Theorem C27_mdf3 : forall big ty size links f g body,
  type_ok 2 ty -> ty <> [35; 35] -> size < 2 ^ 16 -> Forall (fun l => l < 2 ^ 32) links ->
  exists f' b p, write_header3 big (mkB 0 ty size links) f = (f', b, p) /\ p = length f' /\
    b_pos b = length f /\
    read_header3 big (length links) (put f' p body ++ g) (b_pos b) = Ok (mkB (length f) ty size links, p) /\
    slice p (length body) (put f' p body ++ g) = body.
Proof. exact write_header3_read. Qed.
Print Assumptions C27_mdf3.

(** "##CN" with two links and three bytes of fields, in a file of 70 bytes. *)
Example C27_witness : type_ok 4 [35; 35; 67; 78] /\
  exists f' b, write_block4 [35; 35; 67; 78] 0 [512; 2 ^ 64 - 1] [1; 2; 3] (repeat 7 70) = Ok (f', b) /\
    b_pos b = 72%nat /\ b_len b = 43 /\
    read_header4 (f' ++ [9; 9]) 72 = Ok (b, 112%nat) /\ slice 112 3 f' = [1; 2; 3].
Proof.
  split; [split; [reflexivity|]; split; [|split; reflexivity]; cbn; intuition discriminate|].
  eexists _, _. split; [vm_compute; reflexivity|]. repeat split; vm_compute; reflexivity.
Qed.

Example C27_mdf3_witness :
  read_header3 true 2 (fst (fst (write_header3 true (mkB 0 [67; 71] 26 [64; 70000]) (repeat 7 64)))) 64 =
  Ok (mkB 64 [67; 71] 26 [64; 70000], 76%nat).
Proof. vm_compute. reflexivity. Qed.

(* ------------------------------------------------------------------ *)
(** ** C28 *)

(** Blocks appended to a file: every byte there before is kept, every block starts at a multiple of
    eight at or after the old end, no two overlap, and all are in the file at the end. *)
Theorem C28_appended : forall bs f, (0 < length f)%nat -> Forall (fun x => length (fst (fst x)) = 4%nat) bs ->
  exists g l, write_seq bs f = Ok (f ++ g, l) /\ length l = length bs /\
  (forall b, In b l -> (b_pos b mod 8 = 0)%nat /\ (length f <= b_pos b)%nat /\
     (b_pos b + N.to_nat (b_len b) <= length (f ++ g))%nat) /\
  (forall i j a b, (i < j)%nat -> nth_error l i = Some a -> nth_error l j = Some b ->
     (b_pos a + N.to_nat (b_len a) <= b_pos b)%nat) /\
  (forall i ty links body, nth_error bs i = Some (ty, links, body) ->
     exists b, nth_error l i = Some b /\
       block_at (f ++ g) (b_pos b) ty (N.of_nat (24 + 8 * length links + length body)) links body).
Proof.
  intros bs f NE FT. destruct (write_seq_spec bs f NE) as (g & l & E & LA & F2).
  exists g, l. split; [exact E|]. split; [|split; [|split]].
  - clear -F2. induction F2; cbn; auto.
  - intros b IN. destruct (laid_range _ _ _ _ LA IN) as (A & B & C). auto.
  - intros i j a b L A B. apply (laid_disjoint _ _ _ _ _ _ _ LA L A B).
  - intros i ty links body H. clear -F2 FT H. revert i H. induction F2 as [|x b bs l R F2 IH]; intros i H.
    + destruct i; discriminate H.
    + apply Forall_cons_iff in FT as [T FT]. destruct i as [|i].
      * injection H as ->. exists b. cbn [fst snd] in *. destruct R as (_ & _ & R1 & R2). split; auto.
        rewrite R1 in R2. apply block_at_header; auto.
      * cbn in H. destruct (IH FT i H) as (c & C1 & C2). exists c. auto.
Qed.
Print Assumptions C28_appended.

Example C28_witness : exists f' l, write_seq [([35; 35; 84; 88], [], [65; 0]); ([35; 35; 72; 76], [5], [])] (repeat 7 65) = Ok (f', l) /\
  map b_pos l = [72; 104]%nat /\ map b_len l = [26; 32].
Proof. eexists _, _. split; [vm_compute; reflexivity|]. split; reflexivity. Qed.

(* ------------------------------------------------------------------ *)
(** ** C29 *)

(** Children are added and the list is written any number of times, with any update option, and
    other things are appended to the file in between. After the last write a reader that starts at
    the parent block finds exactly the children added, in this order, with their identifiers,
    their other links and their fields; the other links of the parent are as before. *)
Theorem C29_list_round_trip : forall li ops opt f0 p0,
  (0 < b_pos p0)%nat -> (li < length (b_links p0))%nat -> link p0 li = 0 ->
  block_at f0 (b_pos p0) (b_type p0) (b_len p0) (b_links p0) [] ->
  type_ok 4 (b_type p0) -> b_len p0 < 2 ^ 64 -> Forall (fun l => l < 2 ^ 64) (b_links p0) ->
  Forall add_ok ops ->
  exists f p cs, lrun li (ops ++ [LWrite opt]) (f0, p0, []) = Ok (f, p, cs) /\
  (N.of_nat (length f) < 2 ^ 63 ->
   exists b pe bs,
     read_header4 f (b_pos p0) = Ok (b, pe) /\
     b_type b = b_type p0 /\ b_len b = b_len p0 /\
     (forall j, j <> li -> link b j = link p0 j) /\ length (b_links b) = length (b_links p0) /\
     read_list (S (length bs)) f (link b li) = Some (Ok bs) /\
     map (view f) bs = added ops).
Proof.
  intros li ops opt f0 p0 P L L0 H T B F A. apply list_round_trip; auto.
  apply block_at_header in H; [|destruct T; auto]. apply holds_app in H as [H _]. exact H.
Qed.
Print Assumptions C29_list_round_trip.

(** A parent with three links; two children, a write, another append, a third child, a write of all. *)
Definition c29_p : blk := mkB 64 [35; 35; 72; 68] 48 [7; 0; 9].
Definition c29_f : file := repeat 1 64 ++ header_bytes [35; 35; 72; 68] 48 [7; 0; 9].
Definition c29_ops : list lop :=
  [LAdd [35; 35; 68; 71] [3] [1; 2] [5; 5; 5]; LAdd [35; 35; 68; 71] [] [] []; LWrite NotWritten;
   LGrow [8; 8; 8]; LAdd [35; 35; 69; 86] [4; 4] [6] []].
Example C29_witness :
  block_at c29_f 64 [35; 35; 72; 68] 48 [7; 0; 9] [] /\ Forall add_ok c29_ops /\
  match lrun 1 (c29_ops ++ [LWrite AllBlocks]) (c29_f, c29_p, []) with
  | Ok (f, p, cs) =>
      match read_header4 f 64 with
      | Ok (b, _) => match read_list 4 f (link b 1) with
                     | Some (Ok bs) => map (view f) bs =
                         [([35; 35; 68; 71], [3], [1; 2]); ([35; 35; 68; 71], [], []); ([35; 35; 69; 86], [4; 4], [6])]
                     | _ => False end
      | _ => False end
  | _ => False
  end.
Proof.
  split; [|split].
  - apply block_at_header; [reflexivity|]. rewrite app_nil_r. unfold c29_f.
    rewrite <- (app_nil_r (header_bytes _ _ _)) at 1. apply (holds_end (repeat 1 64) _ []).
  - repeat constructor; cbn; intuition discriminate.
  - vm_compute. reflexivity.
Qed.

(* ------------------------------------------------------------------ *)
(** ** C30 *)

(** Updating link [i] of a block in the file: nothing but the eight bytes of the link changes, and
    the block read afterwards has the new link. *)
Theorem C30_link : forall b i l f body, (0 < b_pos b)%nat -> (i < length (b_links b))%nat ->
  type_ok 4 (b_type b) -> block_at f (b_pos b) (b_type b) (b_len b) (b_links b) body ->
  exists f' b', update_link4 b i l f = Ok (f', b') /\
    same_outside f f' (b_pos b + 24 + 8 * i) 8 /\
    b_pos b' = b_pos b /\ b_type b' = b_type b /\ b_len b' = b_len b /\
    length (b_links b') = length (b_links b) /\
    (forall j, link b' j = if (j =? i)%nat then l else link b j) /\
    block_at f' (b_pos b) (b_type b) (b_len b) (b_links b') body.
Proof.
  intros b i l f body P L T H. assert (LT : length (b_type b) = 4%nat) by (destruct T; auto).
  apply block_at_header in H; auto. apply holds_app in H as [H1 H2].
  destruct (update_link4_spec b i l f P L H1) as (f' & E & SO & H'). eexists f', _. split; [exact E|].
  split; [exact SO|]. cbn [b_pos b_type b_len b_links]. split; [auto|]. split; [auto|]. split; [auto|].
  split; [apply set_nth_length|]. split; [intros j; apply link_set_nth; auto|].
  apply block_at_header; auto. apply holds_app. split; auto.
  rewrite header_bytes_length, set_nth_length in *. apply (holds_frame _ _ _ _ _ _ SO H2). right. lia.
Qed.
Print Assumptions C30_link.

Theorem C30_bad_index : forall b i l f, (length (b_links b) <= i)%nat -> update_link4 b i l f = Fail.
Proof.
  intros b i l f H. unfold update_link4.
  replace (length (b_links b) <=? i)%nat with true by (symmetry; apply Nat.leb_le; auto). reflexivity.
Qed.
Print Assumptions C30_bad_index.

(** Updating the length. *)
Theorem C30_size : forall b n f body, (0 < b_pos b)%nat ->
  type_ok 4 (b_type b) -> block_at f (b_pos b) (b_type b) (b_len b) (b_links b) body ->
  exists f', update_size4 b n f = Ok (f', mkB (b_pos b) (b_type b) n (b_links b)) /\
    same_outside f f' (b_pos b + 8) 8 /\
    block_at f' (b_pos b) (b_type b) n (b_links b) body.
Proof.
  intros b n f body P T H. assert (LT : length (b_type b) = 4%nat) by (destruct T; auto).
  apply block_at_header in H; auto. apply holds_app in H as [H1 H2].
  destruct (update_size4_spec b n f P H1) as (f' & E & SO & H'). exists f'. split; [exact E|].
  split; [exact SO|]. apply block_at_header; auto. apply holds_app. split; auto.
  rewrite header_bytes_length in *. apply (holds_frame _ _ _ _ _ _ SO H2). right. lia.
Qed.
Print Assumptions C30_size.

(** MDF3: four bytes, and the block read afterwards has the link if it fits in 32 bits. *)
Theorem C30_mdf3_link : forall big b i l f, (0 < b_pos b)%nat -> (i < length (b_links b))%nat ->
  holds f (b_pos b) (header3_bytes big (b_type b) (b_len b) (b_links b)) ->
  type_ok 2 (b_type b) -> b_type b <> [35; 35] -> b_len b < 2 ^ 16 -> l < 2 ^ 32 ->
  Forall (fun l => l < 2 ^ 32) (b_links b) ->
  exists f' b' p, update_link3 big b i l f = Ok (f', b') /\
    same_outside f f' (b_pos b + 4 + 4 * i) 4 /\
    (forall j, link b' j = if (j =? i)%nat then l else link b j) /\
    read_header3 big (length (b_links b)) f' (b_pos b) = Ok (b', p).
Proof.
  intros big b i l f P L H T NT BL Bl F.
  destruct (update_link3_spec big b i l f P L H) as (f' & E & SO & H'). eexists f', _, _. split; [exact E|].
  split; [exact SO|]. split; [intros j; apply link_set_nth; auto|].
  rewrite <- (set_nth_length (b_links b) i l). apply read_header3_at; auto. apply Forall_set_nth; auto.
Qed.
Print Assumptions C30_mdf3_link.

(** In an MDF3 file above 4 GB the link is cut to 32 bits. *)
Theorem C30_mdf3_wrap_refuted : exists b i l f f' b',
  holds f (b_pos b) (header3_bytes false (b_type b) (b_len b) (b_links b)) /\
  update_link3 false b i l f = Ok (f', b') /\ link b' i = l /\
  read_header3 false 1 f' (b_pos b) = Ok (mkB (b_pos b) (b_type b) (b_len b) [64], 72%nat) /\ l <> 64.
Proof.
  exists (mkB 64 [84; 82] 8 [0]), 0%nat, (2 ^ 32 + 64), (repeat 7 64 ++ header3_bytes false [84; 82] 8 [0]).
  eexists _, _. split.
  { cbn [b_pos b_type b_len b_links]. rewrite <- (app_nil_r (header3_bytes _ _ _ _)) at 1.
    apply (holds_end (repeat 7 64) _ []). }
  split; [vm_compute; reflexivity|]. split; [reflexivity|]. split; [vm_compute; reflexivity|discriminate].
Qed.
Print Assumptions C30_mdf3_wrap_refuted.

Example C30_witness : exists f' b',
  update_link4 c29_p 2 (2 ^ 40) c29_f = Ok (f', b') /\ b_links b' = [7; 0; 2 ^ 40] /\
  read_header4 f' 64 = Ok (b', 112%nat) /\ nth_error f' 109 = Some 1 /\ f' <> c29_f.
Proof.
  eexists _, _. split; [vm_compute; reflexivity|]. repeat split; try (vm_compute; reflexivity).
  vm_compute. discriminate.
Qed.

(* ------------------------------------------------------------------ *)
(** ** C31 *)

(** What is read from a field of [n] characters in which [s] was written: the part of [s] that fits,
    up to the first NUL, without white space at either end. The field has [n] bytes. *)
Theorem C31_any_string : forall n s f pos, holds f pos (str_bytes n s) ->
  length (str_bytes n s) = n /\ read_str n f pos = (trim (cut (firstn n s)), (pos + n)%nat).
Proof. intros. split; [apply str_bytes_length|apply read_str_any; auto]. Qed.
Print Assumptions C31_any_string.

Theorem C31_plain : forall n s f pos, plain_text s -> (length s <= n)%nat ->
  holds f pos (str_bytes n s) -> read_str n f pos = (s, (pos + n)%nat).
Proof. exact read_str_written. Qed.
Print Assumptions C31_plain.

(** Nothing else is taken away by trimming. *)
Theorem C31_trim : forall s, exists a b, s = a ++ trim s ++ b /\
  Forall (fun c => is_space c = true) a /\ Forall (fun c => is_space c = true) b /\
  (trim s = [] \/ is_space (hd 0 (trim s)) = false /\ is_space (last (trim s) 0) = false).
Proof. exact trim_spec. Qed.
Print Assumptions C31_trim.

(** Behind the end of the file characters 255 are read: a field cut off by the end of the file does
    not fail, it yields text that is not in the file. *)
Theorem C31_end_of_file_refuted : exists f, read_str 4 f 1 = ([65; 255; 255; 255], 5%nat) /\ length f = 2%nat.
Proof. exists [0; 65]. split; vm_compute; reflexivity. Qed.
Print Assumptions C31_end_of_file_refuted.

Example C31_witness : plain_text [77; 68; 32; 70] /\ read_str 8 ([1] ++ str_bytes 8 [77; 68; 32; 70] ++ [2]) 1 = ([77; 68; 32; 70], 9%nat).
Proof. split; [split; [cbn; intuition discriminate|split; reflexivity]|vm_compute; reflexivity]. Qed.

(* ------------------------------------------------------------------ *)
(** ** C32 *)

(** A text without NUL and without white space at its ends is read back identically. *)
Theorem C32_text_partial : forall s f, plain_text s -> (0 < length f)%nat -> N.of_nat (25 + length s) < 2 ^ 64 ->
  exists f' b, write_tx4 s f = Ok (f', b) /\ forall g, tx4_text (f' ++ g) (b_pos b) = Ok s.
Proof.
  intros s f P NE B. destruct (tx4_any s f NE B) as (f' & b & E & R). exists f', b. split; auto.
  intros g. rewrite R. pose proof P as [NZ _]. rewrite cut_id by auto. rewrite trim_id; auto.
Qed.
Print Assumptions C32_text_partial.

(** Every text: what is before the first NUL, without white space at the ends. *)
Theorem C32_any_text : forall s f, (0 < length f)%nat -> N.of_nat (25 + length s) < 2 ^ 64 ->
  exists f' b, write_tx4 s f = Ok (f', b) /\ forall g, tx4_text (f' ++ g) (b_pos b) = Ok (trim (cut s)).
Proof. exact tx4_any. Qed.
Print Assumptions C32_any_text.

(** So the property fails for a text that starts with a blank. *)
Theorem C32_blank_refuted : exists s f' b t, ~ In 0 s /\ write_tx4 s (repeat 0 64) = Ok (f', b) /\
  tx4_text f' (b_pos b) = Ok t /\ t <> s.
Proof.
  exists [32; 97]. eexists _, _, _. split; [cbn; intuition discriminate|].
  split; [vm_compute; reflexivity|]. split; [vm_compute; reflexivity|discriminate].
Qed.
Print Assumptions C32_blank_refuted.

(** MDF3 texts up to 65530 characters. *)
Theorem C32_mdf3_partial : forall big s f g, plain_text s -> N.of_nat (length s) <= 65530 ->
  tx3_text big (fst (write_tx3 big s f) ++ g) (snd (write_tx3 big s f)) = Ok s.
Proof.
  intros big s f g P L. rewrite tx3_any by auto. pose proof P as [NZ _].
  rewrite cut_id by auto. rewrite trim_id; auto.
Qed.
Print Assumptions C32_mdf3_partial.

(** A longer one comes back cut: the block size has 16 bits. *)
Theorem C32_mdf3_long_refuted : exists s t,
  plain_text s /\ tx3_text false (fst (write_tx3 false s (repeat 0 64))) (snd (write_tx3 false s (repeat 0 64))) = Ok t /\
  length t = 11%nat /\ N.of_nat (length s) = 65546.
Proof.
  exists (repeat 97 (N.to_nat 65546)). eexists. split.
  { split.
    - intros X. apply repeat_spec in X. discriminate X.
    - intros _. split; vm_compute; reflexivity. }
  split; [vm_compute; reflexivity|]. split; [reflexivity|]. vm_compute. reflexivity.
Qed.
Print Assumptions C32_mdf3_long_refuted.

Example C32_witness : plain_text [60; 84; 88; 62; 97; 32; 98] /\
  exists f' b, write_tx4 [60; 84; 88; 62; 97; 32; 98] (repeat 0 64) = Ok (f', b) /\ b_type b = ty_md /\
    tx4_text f' (b_pos b) = Ok [60; 84; 88; 62; 97; 32; 98].
Proof.
  split; [split; [cbn; intuition discriminate|split; reflexivity]|].
  eexists _, _. split; [vm_compute; reflexivity|]. split; vm_compute; reflexivity.
Qed.

(* ------------------------------------------------------------------ *)
(** ** C33 *)

(** Reading a list of blocks ends, on any file, exactly when following the links never leads to the
    same block twice; it then visits at most as many blocks as the file has bytes. *)
Theorem C33_ends_iff_no_cycle_partial : forall f l,
  (exists fuel r, read_list fuel f l = Some r) <->
  (forall i j a, (i < j)%nat -> follow f l i = Some a -> follow f l j <> Some a).
Proof. exact list_ends_iff. Qed.
Print Assumptions C33_ends_iff_no_cycle_partial.

Theorem C33_length : forall f l fuel bs, read_list fuel f l = Some (Ok bs) -> (length bs <= length f)%nat.
Proof. exact list_length_bound. Qed.
Print Assumptions C33_length.

(** A file of 96 bytes on which reading a list never ends. *)
Theorem C33_cycle_refuted : exists f l, length f = 96%nat /\ forall fuel, read_list fuel f l = None.
Proof.
  exists (repeat 0 64 ++ header_bytes [35; 35; 68; 71] 32 [64]), 64. split; [reflexivity|].
  set (f := repeat 0 64 ++ header_bytes [35; 35; 68; 71] 32 [64]).
  assert (R : read_header4 f (N.to_nat 64) = Ok (mkB 64 [35; 35; 68; 71] 32 [64], 96%nat)) by (vm_compute; reflexivity).
  induction fuel as [|k IH]; [reflexivity|]. rewrite read_list_S.
  change (pos64 64) with true. rewrite R. change (link (mkB 64 [35; 35; 68; 71] 32 [64]) 0) with 64.
  rewrite IH. reflexivity.
Qed.
Print Assumptions C33_cycle_refuted.

(** The list of C29 is a case without cycle. *)
Example C33_witness : match lrun 1 (c29_ops ++ [LWrite AllBlocks]) (c29_f, c29_p, []) with
  | Ok (f, p, _) => exists bs, read_list 10 f (link p 1) = Some (Ok bs) /\ length bs = 3%nat
  | _ => False end.
Proof. vm_compute. eexists. split; reflexivity. Qed.
