(** Theorems about text conversions: C45 (round trip), C46 (malformed text) and C47 (Latin-1). The
    proofs are in TextProofs. UTF-8 and UTF-16 are those of TextSpec. *)
From Verif Require Import Base TextModel TextSpec TextProofs.
From Coq Require Import Lia.
Local Open Scope N_scope.

(* ================================================================== *)
(** * C45: UTF-8 and wide strings *)

(** Wide characters of 32 bits: the result is the UTF-8 of the code points before the first zero;
    the estimated length is the one written, as every access outside the string would be [UB]. *)
Theorem C45_to_utf8 : forall ws cps, c_string ws cps -> Forall scalar cps ->
  wide32_to_utf8 ws = Ok (utf8_text cps).
Proof. exact to_utf8. Qed.
Print Assumptions C45_to_utf8.

(** And back. *)
Theorem C45_from_utf8 : forall s cps, c_string s (utf8_text cps) -> Forall scalar cps ->
  utf8_to_wide32 s = Ok cps.
Proof. exact from_utf8. Qed.
Print Assumptions C45_from_utf8.

Theorem C45_round_trip : forall cps, Forall scalar cps -> ~ In 0 cps ->
  exists s, utf16_to_utf8 cps = Ok s /\ utf8_to_utf16 s = Ok cps.
Proof.
  intros cps F NZ. destruct cps as [|c r]; [exists []; split; reflexivity|].
  exists (utf8_text (c :: r)). split.
  - unfold utf16_to_utf8. apply to_utf8; auto. constructor. auto.
  - unfold utf8_to_utf16. pose proof (utf8_text_len (c :: r)) as L.
    rewrite (from_utf8 (utf8_text (c :: r)) (c :: r)); auto.
    + destruct (utf8_text (c :: r)); [cbn in L; lia|reflexivity].
    + constructor. apply utf8_text_no_nul. auto.
Qed.
Print Assumptions C45_round_trip.

(** Different texts have different UTF-8. *)
Theorem C45_injective : forall a b, Forall scalar a -> Forall scalar b -> utf8_text a = utf8_text b -> a = b.
Proof. exact utf8_inj. Qed.
Print Assumptions C45_injective.

(** No wide string at all, also none with numbers that are no code points, leads outside the memory. *)
Theorem C45_any_wide_string : forall ws, exists s, wide32_to_utf8 ws = Ok s.
Proof. exact any_wide. Qed.
Print Assumptions C45_any_wide_string.

(** Wide characters of 16 bits, with surrogate pairs. *)
Theorem C45_from_utf16 : forall cps, Forall scalar cps -> ~ In 0 cps ->
  wide16_to_utf8 (utf16_text cps) = Ok (utf8_text cps).
Proof. exact wide16_utf8. Qed.
Print Assumptions C45_from_utf16.

(** To them, when every code point has one unit. *)
Theorem C45_to_utf16_partial : forall cps, Forall scalar cps -> ~ In 0 cps -> Forall (fun cp => cp < 2 ^ 16) cps ->
  utf8_to_wide16 (utf8_text cps) = Ok (utf16_text cps).
Proof. exact to_utf16. Qed.
Print Assumptions C45_to_utf16_partial.

(** Missing there, and false: the string made for the result has one unit for each code point. *)
Theorem C45_to_utf16_refuted : ~ (forall cps, Forall scalar cps -> ~ In 0 cps ->
  utf8_to_wide16 (utf8_text cps) = Ok (utf16_text cps)).
Proof.
  intros H. assert (E : utf8_to_wide16 (utf8_text [128512]) = Ok (utf16_text [128512])).
  { apply H; [constructor; [right; lia|constructor]|intros [X|[]]; discriminate]. }
  vm_compute in E. discriminate.
Qed.
Print Assumptions C45_to_utf16_refuted.

(** Texts of UTF-16 channels: right when every code point has one unit (t: a zero unit may follow
    the text, and anything then). *)
Theorem C45_channel_text_partial : forall (big : bool) cps (t : list N), ~ In 0 cps ->
  Forall scalar cps -> Forall (fun cp => cp < 2 ^ 16) cps -> (t = [] \/ exists r, t = 0 :: 0 :: r) ->
  text_of (if big then 3 else 2) (bytes16 big (utf16_text cps) ++ t) = Ok (utf8_text cps).
Proof.
  intros big cps t NZ F L T.
  assert (E : utf16_text cps = cps).
  { clear - L. induction L as [|c r C _ IH]; [reflexivity|]. unfold utf16_text in *. cbn [map concat]. rewrite IH.
    unfold utf16. change (2 ^ 16) with 65536 in C. cbv beta in C. destruct (N.ltb_spec c 65536); [reflexivity|lia]. }
  rewrite E. apply text16; auto.
Qed.
Print Assumptions C45_channel_text_partial.

(** Missing in it, and false: texts with surrogate pairs. Each half is encoded by itself. *)
Theorem C45_channel_text_refuted : ~ (forall cps, ~ In 0 cps -> Forall scalar cps ->
  text_of 2 (bytes16 false (utf16_text cps)) = Ok (utf8_text cps)).
Proof.
  intros H. assert (E : text_of 2 (bytes16 false (utf16_text [128512])) = Ok (utf8_text [128512])).
  { apply H; [intros [X|[]]; discriminate|constructor; [right; lia|constructor]]. }
  vm_compute in E. discriminate.
Qed.
Print Assumptions C45_channel_text_refuted.

Definition sample_text : list N := [65; 228; 8364; 128512].

Example C45_witness : Forall scalar sample_text /\ ~ In 0 sample_text /\
  utf8_text sample_text = [65; 195; 164; 226; 130; 172; 240; 159; 152; 128] /\
  utf16_text sample_text = [65; 228; 8364; 55357; 56832] /\
  wide32_to_utf8 (sample_text ++ [0; 7]) = Ok (utf8_text sample_text) /\
  utf8_to_wide32 (utf8_text sample_text) = Ok sample_text /\
  text_of 3 (bytes16 true [65; 228; 8364] ++ [0; 0; 1]) = Ok (utf8_text [65; 228; 8364]).
Proof.
  split; [repeat (apply Forall_cons; [unfold scalar; lia|]); constructor|]. split; [intros [X|[X|[X|[X|[]]]]]; discriminate|].
  repeat split; vm_compute; reflexivity.
Qed.

(* ================================================================== *)
(** * C46: malformed text *)

(** A string that ends after the first byte of a sequence of four makes the conversion read behind
    the terminator. *)
Theorem C46_malformed_refuted : ~ (forall s, bytes_ok s -> utf8_to_wide32 s <> UB).
Proof.
  intros H. apply (H [240]); [repeat constructor; lia|]. vm_compute. reflexivity.
Qed.
Print Assumptions C46_malformed_refuted.

(** The same with 16-bit wide characters that end with half a pair. *)
Theorem C46_half_pair_refuted : ~ (forall ws, Forall (fun u => u < 2 ^ 16) ws -> wide16_to_utf8 ws <> UB).
Proof.
  intros H. apply (H [55296]); [repeat constructor; lia|]. vm_compute. reflexivity.
Qed.
Print Assumptions C46_half_pair_refuted.

(** Missing: strings with a byte near the end that announces more than one byte beyond it. All
    others, well-formed or not, are read without leaving the string and its terminator. *)
Theorem C46_reads_inside_partial : forall s t, bytes_ok s -> c_string s t ->
  (forall i lead, nth_error t i = Some lead -> (i + announced lead <= length s + 1)%nat) ->
  exists cps, utf8_to_wide32 s = Ok cps.
Proof. intros s t B C H. apply reads_inside; auto. rewrite (c_string_before s t C). exact H. Qed.
Print Assumptions C46_reads_inside_partial.

Example C46_witness : let s := [128; 65; 226; 65; 65; 195] in
  bytes_ok s /\ c_string s s /\
  (forall i lead, nth_error s i = Some lead -> (i + announced lead <= length s + 1)%nat) /\
  utf8_to_wide32 s = Ok [128; 65; 8257; 192].
Proof.
  cbv zeta. split; [repeat constructor; lia|]. split; [constructor; cbn [In]; lia|]. split; [|vm_compute; reflexivity].
  intros i lead E. do 6 (destruct i as [|i]; [injection E as <-; vm_compute; lia|]). destruct i; discriminate.
Qed.

(* ================================================================== *)
(** * C47: Latin-1 *)

Theorem C47_latin1 : forall s, bytes_ok s -> latin1_to_utf8 s = utf8_text s.
Proof. exact latin1_utf8. Qed.
Print Assumptions C47_latin1.

(** Text of a Latin-1 channel: the code points before the first zero byte, which come back. *)
Theorem C47_channel_text : forall s t, bytes_ok s -> c_string s t ->
  text_of 0 s = Ok (utf8_text t) /\ utf8_to_utf16 (utf8_text t) = Ok t.
Proof.
  intros s t B C. pose proof (c_string_before s t C) as E. split.
  - unfold text_of. rewrite E. f_equal. apply latin1_utf8. rewrite <- E. apply before_nul_forall. exact B.
  - assert (F : Forall scalar t).
    { rewrite <- E. eapply Forall_impl; [|apply before_nul_forall; exact B]. intros c X. left. unfold byte_ok in X. lia. }
    assert (NZ : ~ In 0 t) by (rewrite <- E; apply before_nul_no).
    destruct (C45_round_trip t F NZ) as (u & U1 & U2).
    destruct t as [|c r]; [reflexivity|]. unfold utf16_to_utf8 in U1.
    rewrite (to_utf8 (c :: r) (c :: r)) in U1 by (auto; constructor; auto). injection U1 as <-. exact U2.
Qed.
Print Assumptions C47_channel_text.

Example C47_witness : bytes_ok [71; 114; 252; 223; 0; 1] /\ c_string [71; 114; 252; 223; 0; 1] [71; 114; 252; 223] /\
  text_of 0 [71; 114; 252; 223; 0; 1] = Ok [71; 114; 195; 188; 195; 159].
Proof.
  split; [repeat constructor; lia|]. split; [|vm_compute; reflexivity].
  apply (c_cut [71; 114; 252; 223] [1]). cbn [In]. lia.
Qed.
