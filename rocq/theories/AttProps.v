(** C82: attachments are exported as they were attached. *)
From Verif Require Import Base BlockModel BlockSpec MetaModel MetaSpec MetaProps IdentModel IdentSpec IdentProps QueueModel MeasModel MeasSpec
  MeasProps Md5Model Md5Spec Md5Props AttModel AttSpec AttProofs AttProofs2.
Local Open Scope N_scope.

(** Any number of attachments, in the file of any measurement: the reader lists them in their order,
    with name, type, comment, creator, the size of the attached file and its MD5 checksum. An
    embedded one, compressed or not, is exported to a file and to a stream with the bytes that the
    attached file had at InitMeasurement, whatever the files are by then. Of one that is not
    embedded, the attached file is copied as it is at the time of the export; the export to a file
    fails when the file is no longer there, or when its checksum has changed. *)
Theorem C82_export : forall deflate inflate i h ops fs, zip_ok deflate inflate ->
  id_texts i -> id_numbers i -> hd_ok (set_ats [] h) -> calls_ok h ops -> in_turn ops ->
  Forall new_attachment (h_ats h) -> Forall (attachable deflate fs) (h_ats h) ->
  exists m, bind (init_meas_fs deflate fs i h) (mrun ops) = Ok m /\
  forall x, N.of_nat (length (m_file m ++ x)) < 2 ^ 63 ->
  exists enough, forall fuel, (enough <= fuel)%nat ->
  exists ks, attachments fuel (m_file m ++ x) = Ok ks /\ length ks = length (h_ats h) /\
    forall j a content, nth_error (h_ats h) j = Some a -> fs (x_name a) = Some content ->
    exists k, nth_error ks j = Some k /\ shows a content k /\
      forall now dest,
      (embedded (x_flags a) = true ->
         export_stream inflate now (m_file m ++ x) k = (content, true) /\
         export_file inflate now (m_file m ++ x) k dest = (store now dest content, true)) /\
      (embedded (x_flags a) = false -> forall current, now (x_name a) = Some current ->
         export_stream inflate now (m_file m ++ x) k = (current, true) /\
         forall q, fst (export_file inflate now (m_file m ++ x) k dest) q = store now dest current q /\
         (snd (export_file inflate now (m_file m ++ x) k dest) = true <-> rfc_md5 current = rfc_md5 content)) /\
      (embedded (x_flags a) = false -> now (x_name a) = None -> dest <> x_name a ->
         export_stream inflate now (m_file m ++ x) k = ([], false) /\
         export_file inflate now (m_file m ++ x) k dest = (now, false)).
Proof.
  intros deflate inflate i h ops fs Z IT IN OK CO TU FN FA.
  destruct (contents deflate fs _ FN FA) as [cs FC]. destruct (made_all_load deflate _ _ _ FC) as [FL FO].
  rewrite (init_fs deflate fs i h (h_ats h) (made_all deflate (h_ats h) cs) []);
    [|rewrite app_nil_r; reflexivity|exact FL|constructor|cbn; lia].
  destruct (meas_heads i h _ ops IT IN OK FO CO TU) as (m & EM & R). exists m. split; [exact EM|].
  intros x LX. destruct (R x LX) as [n Rn]. exists n. intros fuel LF. destruct (Rn fuel LF) as (ks & EK & FK).
  exists ks. split; [exact EK|].
  assert (LC : length (h_ats h) = length cs) by (eapply f2_length; exact FC).
  destruct (heads_made deflate _ _ _ _ LC FK) as [LK HK]. split; [exact LK|].
  intros j a content Ej Ec. destruct (nth_content deflate fs _ _ _ _ FC Ej) as (c & E1 & E2 & NE & NA).
  assert (c = content) as -> by congruence. destruct (HK j a content Ej E1) as (k & Ek & Hk).
  exists k. split; [exact Ek|]. split; [apply (made_shows deflate _ _ _ _ NA Hk)|].
  pose proof Hk as (HF & _ & _ & _ & HN & _). pose proof (flags4 _ (proj1 NA)) as (F0 & _).
  cbn [made x_flags x_name] in HF, HN.
  intros now dest. split; [|split].
  - intros EM'. pose proof (made_bytes deflate inflate Z _ _ _ _ NA NE Hk EM') as EB.
    unfold export_stream, export_file. rewrite HF, F0, EM', EB. split; [reflexivity|].
    rewrite (made_check deflate _ _ _ _ _ NA Hk), bytes_eqb_refl. reflexivity.
  - intros EM' current EN. unfold export_stream, export_file. rewrite HF, F0, EM', HN, EN. split; [reflexivity|].
    cbn [fst snd]. intros q. split.
    + destruct (bytes_eqb (x_name a) dest) eqn:ED; [|reflexivity]. apply bytes_eqb_true in ED. subst dest.
      unfold store. destruct (bytes_eqb q (x_name a)) eqn:EQ; [|reflexivity]. apply bytes_eqb_true in EQ. subst q. exact EN.
    + rewrite (made_check deflate _ _ _ _ _ NA Hk). apply bytes_eqb_true.
  - intros EM' EN ND. unfold export_stream, export_file. rewrite HF, F0, EM', HN, EN. split; [reflexivity|].
    destruct (bytes_eqb (x_name a) dest) eqn:ED; [apply bytes_eqb_true in ED; congruence|]. reflexivity.
Qed.
Print Assumptions C82_export.

(** Copied into another file, the attachments are exported from there with the same bytes and the
    same checksum, whatever the files are when the other file is made: an embedded one with the bytes
    the attached file had when it was first attached. *)
Theorem C82_copy : forall deflate inflate i h ops fs, zip_ok deflate inflate ->
  id_texts i -> id_numbers i -> hd_ok (set_ats [] h) -> calls_ok h ops -> in_turn ops ->
  Forall new_attachment (h_ats h) -> Forall (attachable deflate fs) (h_ats h) ->
  exists m, bind (init_meas_fs deflate fs i h) (mrun ops) = Ok m /\
  forall x, N.of_nat (length (m_file m ++ x)) < 2 ^ 63 ->
  exists enough, forall fuel, (enough <= fuel)%nat ->
  exists ks, attachments fuel (m_file m ++ x) = Ok ks /\
  forall i2 h2 ops2 later, id_texts i2 -> id_numbers i2 -> hd_ok (set_ats [] h2) -> calls_ok h2 ops2 -> in_turn ops2 ->
    h_ats h2 = map (fun k => copy_at (m_file m ++ x) k (k_md k)) ks ->
  exists m2, bind (init_meas_fs deflate later i2 h2) (mrun ops2) = Ok m2 /\
  forall y, N.of_nat (length (m_file m2 ++ y)) < 2 ^ 63 ->
  exists enough2, forall fuel2, (enough2 <= fuel2)%nat ->
  exists ks2, attachments fuel2 (m_file m2 ++ y) = Ok ks2 /\ length ks2 = length (h_ats h) /\
    forall j a content, nth_error (h_ats h) j = Some a -> fs (x_name a) = Some content ->
    exists k2, nth_error ks2 j = Some k2 /\ shows a content k2 /\
      forall now dest, embedded (x_flags a) = true ->
         export_stream inflate now (m_file m2 ++ y) k2 = (content, true) /\
         export_file inflate now (m_file m2 ++ y) k2 dest = (store now dest content, true).
Proof.
  intros deflate inflate i h ops fs Z IT IN OK CO TU FN FA.
  destruct (contents deflate fs _ FN FA) as [cs FC]. destruct (made_all_load deflate _ _ _ FC) as [FL FO].
  rewrite (init_fs deflate fs i h (h_ats h) (made_all deflate (h_ats h) cs) []);
    [|rewrite app_nil_r; reflexivity|exact FL|constructor|cbn; lia].
  destruct (meas_heads i h _ ops IT IN OK FO CO TU) as (m & EM & R). exists m. split; [exact EM|].
  intros x LX. destruct (R x LX) as [n Rn]. exists n. intros fuel LF. destruct (Rn fuel LF) as (ks & EK & FK).
  exists ks. split; [exact EK|].
  intros i2 h2 ops2 later IT2 IN2 OK2 CO2 TU2 E2.
  assert (F2 : Forall2 (fun (a : at4) (c : list N) => new_attachment a /\ c <> []) (h_ats h) cs).
  { eapply f2_impl; [|exact FC]. intros a c (_ & NE & NA & _). split; assumption. }
  pose proof (copies_load deflate later _ _ _ _ F2 FK) as FL2.
  rewrite (init_fs deflate later i2 h2 (h_ats h2) (made_all deflate (h_ats h) cs) []);
    [|rewrite app_nil_r; reflexivity|rewrite E2; exact FL2|constructor|cbn; lia].
  destruct (meas_heads i2 h2 _ ops2 IT2 IN2 OK2 FO CO2 TU2) as (m2 & EM2 & R2). exists m2. split; [exact EM2|].
  intros y LY. destruct (R2 y LY) as [n2 Rn2]. exists n2. intros fuel2 LF2. destruct (Rn2 fuel2 LF2) as (ks2 & EK2 & FK2).
  exists ks2. split; [exact EK2|].
  assert (LC : length (h_ats h) = length cs) by (eapply f2_length; exact FC).
  destruct (heads_made deflate _ _ _ _ LC FK2) as [LK HK]. split; [exact LK|].
  intros j a content Ej Ec. destruct (nth_content deflate fs _ _ _ _ FC Ej) as (c & E1 & E3 & NE & NA).
  assert (c = content) as -> by congruence. destruct (HK j a content Ej E1) as (k & Ek & Hk).
  exists k. split; [exact Ek|]. split; [apply (made_shows deflate _ _ _ _ NA Hk)|].
  pose proof Hk as (HF & _ & _ & _ & HN & _). pose proof (flags4 _ (proj1 NA)) as (F0 & _).
  cbn [made x_flags x_name] in HF, HN. intros now dest EM'.
  pose proof (made_bytes deflate inflate Z _ _ _ _ NA NE Hk EM') as EB.
  unfold export_stream, export_file. rewrite HF, F0, EM', EB. split; [reflexivity|].
  rewrite (made_check deflate _ _ _ _ _ NA Hk), bytes_eqb_refl. reflexivity.
Qed.
Print Assumptions C82_copy.

(** An export to a file of an attachment with a checksum, from any file, damaged or not, that reports
    success has written bytes with that checksum. *)
Theorem C82_checked : forall inflate now f k dest, with_md5 (k_flags k) = true -> k_md5 k <> repeat 255 16 ->
  snd (export_file inflate now f k dest) = true ->
  exists bytes, (forall q, fst (export_file inflate now f k dest) q = store now dest bytes q) /\
    rfc_md5 bytes = k_md5 k.
Proof.
  intros inflate now f k dest W ND H. unfold export_file in *. destruct (embedded (k_flags k)).
  - destruct (embedded_bytes inflate f k) as [bytes ok]. cbn [fst snd] in *. exists bytes. split; [reflexivity|].
    apply andb_true_iff in H as [_ H]. unfold check_md5 in H. rewrite W, file_md5_ok in H. apply bytes_eqb_true in H. exact H.
  - destruct (now (k_name k)) as [bytes|] eqn:E; cbn [fst snd] in *.
    + exists bytes. split.
      * intros q. destruct (bytes_eqb (k_name k) dest) eqn:ED; [|reflexivity]. apply bytes_eqb_true in ED. subst dest.
        unfold store. destruct (bytes_eqb q (k_name k)) eqn:EQ; [|reflexivity]. apply bytes_eqb_true in EQ. subst q. exact E.
      * unfold check_md5 in H. rewrite W, file_md5_ok in H. apply bytes_eqb_true in H. exact H.
    + rewrite W in H. cbn [negb orb] in H. apply andb_true_iff in H as [_ H]. apply bytes_eqb_true in H. congruence.
Qed.
Print Assumptions C82_checked.

(* ------------------------------------------------------------------ *)

(** A compressor that works: two bytes in front; every compressor makes some files longer. *)
Definition deflate2 (x : list N) : list N := 120 :: 1 :: x.
Definition inflate2 (x : list N) : list N * bool :=
  match x with 120 :: 1 :: r => (r, true) | _ => ([], false) end.

Lemma zip2_ok : zip_ok deflate2 inflate2.
Proof. intros x _. split; [discriminate|reflexivity]. Qed.

Definition noise : list N := map (fun i => N.of_nat (i * i * 7 + 3 * i) mod 256) (seq 0 120).
Definition files1 : fsys := fun p =>
  if bytes_eqb p [65] then Some [1; 2; 3] else if bytes_eqb p [66] then Some noise else if bytes_eqb p [69] then Some [] else None.
(* files "A" and "B"; the first bit of the flags is "embedded", the second "compressed" *)
Definition att (flags : N) (name : N) : at4 := mkAt flags 0 [] 0 [] [name] [] None.

(** The buffer for a compressed attachment is not longer than the file (100 bytes at least), and a
    file that does not shrink is not written: InitMeasurement reports success and the file has no
    such attachment when it is the last; when another one follows, InitMeasurement fails. The same
    for an empty file. *)
Theorem C82_incompressible_refuted : zip_ok deflate2 inflate2 /\ forall i h, id_texts i -> id_numbers i -> hd_ok (set_ats [] h) ->
  (exists m, init_meas_fs deflate2 files1 i (set_ats [att 1 65; att 3 66] h) = Ok m /\
     init_meas_fs deflate2 files1 i (set_ats [att 1 65] h) = Ok m) /\
  (exists m, init_meas_fs deflate2 files1 i (set_ats [att 3 69] h) = Ok m /\
     init_meas_fs deflate2 files1 i (set_ats [] h) = Ok m) /\
  (forall f, write_atts deflate2 files1 None [att 3 66; att 1 65] f = Fail \/
             write_atts deflate2 files1 None [att 3 66; att 1 65] f = UB).
Proof.
  split; [apply zip2_ok|]. intros i h IT IN OK.
  assert (LA : load deflate2 files1 (att 1 65) = Ok (Some (made deflate2 (att 1 65) [1; 2; 3]))) by (vm_compute; reflexivity).
  assert (LB : load deflate2 files1 (att 3 66) = Ok None) by (vm_compute; reflexivity).
  assert (LE : load deflate2 files1 (att 3 69) = Ok None) by (vm_compute; reflexivity).
  assert (OA : at_ok (made deflate2 (att 1 65) [1; 2; 3])).
  { apply made_ok; [|reflexivity]. repeat split; try reflexivity; try (intros X; cbn in X; decompose [or] X; auto; discriminate);
      try discriminate; try exact Logic.I; auto. }
  assert (CO : calls_ok h []) by (split; intros ? []).
  assert (TU : in_turn []) by (intros [|] ? ? X; discriminate).
  split; [|split].
  - rewrite (init_fs deflate2 files1 i (set_ats [att 1 65; att 3 66] h) [att 1 65] [made deflate2 (att 1 65) [1; 2; 3]] [att 3 66]);
      [|reflexivity|constructor; [exact LA|constructor]|constructor; [exact LB|constructor]|cbn; lia].
    rewrite (init_fs deflate2 files1 i (set_ats [att 1 65] h) [att 1 65] [made deflate2 (att 1 65) [1; 2; 3]] []);
      [|reflexivity|constructor; [exact LA|constructor]|constructor|cbn; lia].
    destruct (meas_heads i h [made deflate2 (att 1 65) [1; 2; 3]] [] IT IN OK (Forall_cons _ OA (Forall_nil _)) CO TU) as (m & E & _).
    exists m. cbn [mrun] in E. change (set_ats ?y (set_ats ?z h)) with (set_ats y h).
    destruct (init_meas i (set_ats [made deflate2 (att 1 65) [1; 2; 3]] h)); cbn [bind] in E; [split; exact E|discriminate|discriminate].
  - rewrite (init_fs deflate2 files1 i (set_ats [att 3 69] h) [] [] [att 3 69]);
      [|reflexivity|constructor|constructor; [exact LE|constructor]|cbn; lia].
    rewrite (init_fs deflate2 files1 i (set_ats [] h) [] [] []);
      [|reflexivity|constructor|constructor|cbn; lia].
    destruct (meas_heads i h [] [] IT IN OK (Forall_nil _) CO TU) as (m & E & _).
    exists m. cbn [mrun] in E. change (set_ats ?y (set_ats ?z h)) with (set_ats y h).
    destruct (init_meas i (set_ats [] h)); cbn [bind] in E; [split; exact E|discriminate|discriminate].
  - intros f. cbn [write_atts]. rewrite LB. cbn [bind]. rewrite LA. cbn [bind].
    destruct (write_at _ f) as [[f1 pos]| |]; cbn [bind]; auto.
Qed.
Print Assumptions C82_incompressible_refuted.

(** A file that is not there is attached as an empty one: InitMeasurement succeeds, and the export of
    the embedded attachment reports success and makes an empty file. *)
Theorem C82_missing_refuted : forall i h, id_texts i -> id_numbers i -> hd_ok (set_ats [] h) ->
  files1 [90] = None /\
  exists m, init_meas_fs deflate2 files1 i (set_ats [att 1 90] h) = Ok m /\
  (N.of_nat (length (m_file m)) < 2 ^ 63 -> exists enough, forall fuel, (enough <= fuel)%nat ->
   exists k, attachments fuel (m_file m) = Ok [k] /\ md5_text k = None /\
     forall now dest, export_file inflate2 now (m_file m) k dest = (store now dest [], true)).
Proof.
  intros i h IT IN OK. split; [reflexivity|].
  set (y := mkAt 1 0 (repeat 0 16) 0 [] [90] [] None).
  assert (LA : load deflate2 files1 (att 1 90) = Ok (Some y)) by (vm_compute; reflexivity).
  assert (OA : at_ok y).
  { repeat split; try reflexivity; try (intros X; cbn in X; decompose [or] X; auto; discriminate);
      try discriminate; try exact Logic.I; auto. }
  assert (CO : calls_ok h []) by (split; intros ? []).
  assert (TU : in_turn []) by (intros [|] ? ? X; discriminate).
  rewrite (init_fs deflate2 files1 i (set_ats [att 1 90] h) [att 1 90] [y] []);
      [|reflexivity|constructor; [exact LA|constructor]|constructor|cbn; lia].
  change (set_ats [y] (set_ats [att 1 90] h)) with (set_ats [y] h).
  destruct (meas_heads i h [y] [] IT IN OK (Forall_cons _ OA (Forall_nil _)) CO TU) as (m & E & R).
  cbn [mrun] in E. exists m. split.
  { destruct (init_meas i (set_ats [y] h)); cbn [bind] in E; [exact E|discriminate|discriminate]. }
  intros L. destruct (R [] ltac:(rewrite app_nil_r; exact L)) as [n Rn]. exists n. intros fuel LF.
  destruct (Rn fuel LF) as (ks & EK & F). rewrite app_nil_r in EK, F.
  inversion F as [|? k ? ks' H F']; subst. inversion F'; subst. exists k. split; [exact EK|].
  destruct H as (HF & _ & _ & _ & _ & _ & _ & _ & HL). cbn in HF, HL.
  unfold md5_text, export_file, embedded_bytes, check_md5. rewrite HF. split; [reflexivity|].
  intros now dest. rewrite <- HL. reflexivity.
Qed.
Print Assumptions C82_missing_refuted.

(** An export to a stream is not checked: when the file ends inside the attachment, the missing bytes
    are written as 255 and success is reported. *)
Theorem C82_stream_refuted : forall inflate now, exists k,
  let f := repeat 1 100 ++ [5; 6; 7] in
  md5_text k = Some (hex_text (rfc_md5 [5; 6; 7; 8; 9])) /\ k_size k = 5 /\
  export_stream inflate now f k = ([5; 6; 7; 255; 255], true) /\
  forall dest, snd (export_file inflate now f k dest) = false.
Proof.
  intros inflate now. exists (mkAh 5 0 (rfc_md5 [5; 6; 7; 8; 9]) 5 5 100 [65] [] None). cbv zeta.
  split; [unfold md5_text; cbn [k_flags k_md5]; change (with_md5 5) with true; cbv iota; rewrite hex_ok; reflexivity|].
  split; [reflexivity|]. split; [vm_compute; reflexivity|]. intros dest. unfold export_file.
  change (embedded (k_flags _)) with true. cbv iota. vm_compute. reflexivity.
Qed.
Print Assumptions C82_stream_refuted.

(** An attached file that was empty has no size in the file, and a copy of the attachment attaches
    the file anew: the copy has the bytes the file has by then. *)
Theorem C82_copy_refuted : exists f k later,
  k_size k = 0 /\ embedded_bytes inflate2 f k = ([], true) /\ md5_text k = Some (hex_text (rfc_md5 [])) /\
  later (k_name k) = Some [7; 8] /\
  load deflate2 later (copy_at f k (k_md k)) = Ok (Some (made deflate2 (att 1 65) [7; 8])).
Proof.
  exists (repeat 1 100), (mkAh 5 0 (rfc_md5 []) 0 0 50 [65] [] None), (fun _ => Some [7; 8]).
  split; [reflexivity|]. split; [reflexivity|].
  split; [unfold md5_text; cbn [k_flags k_md5]; change (with_md5 5) with true; cbv iota; rewrite hex_ok; reflexivity|].
  split; [reflexivity|]. vm_compute. reflexivity.
Qed.
Print Assumptions C82_copy_refuted.

Example C82_witness : zip_ok deflate2 inflate2 /\ hd_ok (set_ats [] meas1) /\ calls_ok meas1 calls1 /\ in_turn calls1 /\
  Forall new_attachment [att 3 65; att 1 66; att 0 65] /\ Forall (attachable deflate2 files1) [att 3 65; att 1 66; att 0 65] /\
  load deflate2 files1 (att 3 65) = Ok (Some (made deflate2 (att 3 65) [1; 2; 3])) /\
  x_data (made deflate2 (att 3 65) [1; 2; 3]) = [120; 1; 1; 2; 3].
Proof.
  destruct C69_witness as (OK & CO & TU & _). split; [apply zip2_ok|].
  split; [destruct OK as (H1 & H2 & H3 & _ & H5 & H6 & H7); repeat (split; [assumption || constructor|]); assumption|].
  split; [exact CO|]. split; [exact TU|].
  assert (NA : forall fl n, fl < 4 -> n = 65 \/ n = 66 -> new_attachment (att fl n)).
  { intros fl n L [->| ->]; (split; [exact L|]); repeat split; try reflexivity;
      try (intros X; cbn in X; decompose [or] X; auto; discriminate); try discriminate; try exact Logic.I; auto. }
  split; [repeat constructor; apply NA; auto; reflexivity|].
  split; [|split; vm_compute; reflexivity].
  apply Forall_cons; [|apply Forall_cons; [|apply Forall_cons; [|constructor]]].
  - exists [1; 2; 3]. split; [reflexivity|]. split; [discriminate|]. split; [reflexivity|].
    intros _ _. apply Nat.leb_le. reflexivity.
  - exists noise. split; [reflexivity|]. split; [discriminate|]. split; [vm_compute; reflexivity|].
    intros _ X. discriminate.
  - exists [1; 2; 3]. split; [reflexivity|]. split; [discriminate|]. split; [reflexivity|].
    intros X. discriminate.
Qed.
