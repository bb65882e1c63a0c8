(** Attachments in the file of a measurement. *)
From Verif Require Import Base BlockModel MetaModel MetaSpec IdentModel IdentSpec QueueModel MeasModel MeasSpec MeasProps
  Md5Model Md5Spec Md5Props AttModel AttSpec AttProofs.
Local Open Scope N_scope.

Lemma f2_length : forall {A B} (R : A -> B -> Prop) l m, Forall2 R l m -> length l = length m.
Proof. intros A B R l m F. induction F; cbn [length]; congruence. Qed.

Lemma f2_impl : forall {A B} (R S : A -> B -> Prop) l m, (forall a b, R a b -> S a b) -> Forall2 R l m -> Forall2 S l m.
Proof. intros A B R S l m H F. induction F; constructor; auto. Qed.

Section Zlib.
Context (deflate : list N -> list N).

Lemma meas_heads : forall i h ys ops, id_texts i -> id_numbers i -> hd_ok (set_ats [] h) -> Forall at_ok ys ->
  calls_ok h ops -> in_turn ops ->
  exists m, bind (init_meas i (set_ats ys h)) (mrun ops) = Ok m /\
  forall x, N.of_nat (length (m_file m ++ x)) < 2 ^ 63 ->
  exists enough, forall fuel, (enough <= fuel)%nat ->
  exists ks, attachments fuel (m_file m ++ x) = Ok ks /\ Forall2 (head_of (m_file m ++ x)) ys ks.
Proof.
  intros i h ys ops IT IN (H1 & H2 & H3 & _ & H5 & H6 & H7) FY CO TU.
  assert (OK : hd_ok (set_ats ys h)) by (split; [exact H1|]; repeat (split; try assumption)).
  assert (CO' : calls_ok (set_ats ys h) ops) by exact CO.
  destruct (C69_file i (set_ats ys h) ops IT IN OK CO' TU) as (m & EM & R). exists m. split; [exact EM|].
  intros x LX. destruct (R x LX) as [n Rn]. exists n. intros fuel L. destruct (Rn fuel L) as (h' & ER & _ & EH & _).
  destruct (attachments_file _ _ _ _ ER) as (ks & EK & F). exists ks. split; [exact EK|].
  assert (h_ats h' = ys) as <-; [|exact F]. change ys with (h_ats (set_ats ys h)). congruence.
Qed.

(** The contents of the files at the time of writing. *)
Lemma contents : forall fs ats, Forall new_attachment ats -> Forall (attachable deflate fs) ats ->
  exists cs, Forall2 (fun a c => fs (x_name a) = Some c /\ c <> [] /\ new_attachment a /\
      N.of_nat (length c) < 2 ^ 64 /\ load deflate fs a = Ok (Some (made deflate a c))) ats cs.
Proof.
  intros fs ats F. induction F as [|a ats N1 F IH]; intros G; [exists []; constructor|].
  inversion G as [|? ? (c & E & NE & L & R) G']; subst. destruct (IH G') as [cs FC]. exists (c :: cs).
  constructor; [|exact FC]. split; [exact E|]. split; [exact NE|]. split; [exact N1|]. split; [exact L|].
  apply load_made; assumption.
Qed.

Definition made_all (ats : list at4) (cs : list (list N)) : list at4 :=
  map (fun '(a, c) => made deflate a c) (combine ats cs).

Lemma made_all_load : forall fs ats cs, Forall2 (fun a c => fs (x_name a) = Some c /\ c <> [] /\ new_attachment a /\
      N.of_nat (length c) < 2 ^ 64 /\ load deflate fs a = Ok (Some (made deflate a c))) ats cs ->
  Forall2 (fun x y => load deflate fs x = Ok (Some y)) ats (made_all ats cs) /\ Forall at_ok (made_all ats cs).
Proof.
  intros fs ats cs F. induction F as [|a c ats cs (E & NE & N1 & L & LD) F [IH1 IH2]]; [split; constructor|].
  split; constructor; auto. apply made_ok; assumption.
Qed.

Lemma heads_made : forall f ats cs ks, length ats = length cs -> Forall2 (head_of f) (made_all ats cs) ks ->
  length ks = length ats /\
  forall j a c, nth_error ats j = Some a -> nth_error cs j = Some c ->
    exists k, nth_error ks j = Some k /\ head_of f (made deflate a c) k.
Proof.
  intros f ats. induction ats as [|a ats IH]; intros cs ks L F.
  - inversion F; subst. split; [reflexivity|]. intros [|j] a c E; discriminate.
  - destruct cs as [|c cs]; [discriminate|]. inversion F as [|? k ? ks' H F']; subst.
    destruct (IH cs ks' ltac:(cbn in L; lia) F') as [L1 R]. split; [cbn; lia|].
    intros [|j] a' c' E1 E2; cbn [nth_error] in *.
    + assert (a = a') as <- by congruence. assert (c = c') as <- by congruence. exists k. split; [reflexivity|exact H].
    + apply R; assumption.
Qed.

Lemma nth_content : forall fs ats cs j a, Forall2 (fun a c => fs (x_name a) = Some c /\ c <> [] /\ new_attachment a /\
      N.of_nat (length c) < 2 ^ 64 /\ load deflate fs a = Ok (Some (made deflate a c))) ats cs ->
  nth_error ats j = Some a -> exists c, nth_error cs j = Some c /\ fs (x_name a) = Some c /\ c <> [] /\ new_attachment a.
Proof.
  intros fs ats cs j a F. revert j. induction F as [|b c ats cs (E & NE & N1 & _) F IH]; intros [|j] H; try discriminate.
  - cbn [nth_error] in *. assert (b = a) as <- by congruence. exists c. auto.
  - cbn [nth_error] in *. apply IH; exact H.
Qed.

(** A copy of an attachment that was made from a file is written as that attachment. *)
Lemma copy_load : forall fs f a c k, new_attachment a -> c <> [] -> head_of f (made deflate a c) k ->
  load deflate fs (copy_at f k (k_md k)) = Ok (Some (made deflate a c)).
Proof.
  intros fs f a c k NA NE (HF & HC & HM & HZ & HN & HT & HD & HS & HL).
  unfold copy_at. cbv zeta. rewrite HS, HL, Nat.sub_diag. cbn [repeat]. rewrite app_nil_r.
  unfold load. cbn [x_size x_flags x_creator x_md5 x_data x_name x_type x_md]. rewrite HZ, HF, HC, HM, HN, HT, HD.
  cbn [made x_size x_flags x_creator x_md5 x_data x_name x_type x_md].
  destruct c as [|y r]; [congruence|]. cbn [length].
  destruct (N.of_nat (S (length r)) =? 0) eqn:E0; [apply N.eqb_eq in E0; lia|].
  unfold stored_md5. rewrite (proj1 (digest_ok _)), Nat.eqb_refl. reflexivity.
Qed.

Lemma copies_load : forall fs f ats cs ks, Forall2 (fun a c => new_attachment a /\ c <> []) ats cs ->
  Forall2 (head_of f) (made_all ats cs) ks ->
  Forall2 (fun x y => load deflate fs x = Ok (Some y)) (map (fun k => copy_at f k (k_md k)) ks) (made_all ats cs).
Proof.
  intros fs f ats cs ks F. revert ks. induction F as [|a c ats cs [N1 NE] F IH]; intros ks G; inversion G; subst;
    cbn [map]; constructor; auto. apply copy_load; assumption.
Qed.

End Zlib.
