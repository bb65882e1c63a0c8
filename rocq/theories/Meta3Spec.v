(** What a reader gets from the MDF3 description of a measurement. *)
From Verif Require Import Base BlockModel BlockSpec ConvModel CcModel Cc3Proofs MetaModel Meta3Model.
Local Open Scope N_scope.

(** Texts of TX blocks, and of fields of [n] bytes: no NUL, no white space at the ends, short
    enough. *)
Definition text3_ok (t : list N) : Prop := plain_text t /\ N.of_nat (length t) <= 65530.
Definition str3_ok (n : nat) (s : list N) : Prop := plain_text s /\ (length s <= n)%nat.

(** Conversions as a reader sees them. Tables of numbers come back damaged ([seen], Cc3Proofs.v:
    the parameters with the bytes the writer puts between them), and the texts of a text range table
    come back empty; see the findings about C39 and C40. *)
Inductive conv3_as : cc3 -> list (list N) -> cc3 -> Prop :=
| as_params : forall t vals pads, param_type t -> length pads = length vals ->
    Forall (fun p => (7 <= length p)%nat) pads -> 46 + 16 * N.of_nat (length vals) < 65536 ->
    conv3_as (mkCc3 t (map PD vals) [] [] []) pads
             (mkCc3 t (firstn (length vals) (seen (combine vals pads))) [] [] [])
| as_table : forall t vals pads k, t = 1 \/ t = 2 -> length vals = (2 * k)%nat -> length pads = length vals ->
    Forall (fun p => (7 <= length p)%nat) pads -> 46 + 16 * N.of_nat (length vals) < 65536 ->
    conv3_as (mkCc3 t (map PD vals) [] [] []) pads
             (mkCc3 t (firstn (length vals) (seen (combine vals pads))) [] [] [])
| as_formula : forall s pads, plain_text s -> N.of_nat (length s) < 65536 ->
    conv3_as (mkCc3 10 [] s [] []) pads (mkCc3 10 [] s [] [])
| as_texts : forall l pads, Forall (fun e => str3_ok 32 (snd e)) l -> 46 + 40 * N.of_nat (length l) < 65536 ->
    conv3_as (mkCc3 11 [] [] l []) pads (mkCc3 11 [] [] l [])
| as_ranges : forall l pads, 46 + 20 * N.of_nat (length l) < 65536 ->
    conv3_as (mkCc3 12 [] [] [] l) pads (mkCc3 12 [] [] [] (map (fun '(lo, hi, _) => (lo, hi, [])) l))
| as_plain : forall t pads, t < 65536 -> ~ In t [0; 1; 2; 6; 7; 8; 9; 10; 11; 12] ->
    conv3_as (mkCc3 t [] [] [] []) pads (mkCc3 t [] [] [] []).

Definition ccx_as (c c' : ccx) : Prop :=
  x_min c < 2 ^ 64 /\ x_max c < 2 ^ 64 /\ str3_ok 20 (x_unit c) /\
  exists k, conv3_as (x_conv c) (x_pads c) k /\
    c' = mkCcx (x_valid c) (x_min c) (x_max c) (x_unit c) k [].

Definition ccx_opt_as (c c' : option ccx) : Prop :=
  match c, c' with
  | None, None => True
  | Some c, Some c' => ccx_as c c'
  | _, _ => False
  end.

(** A channel: everything is read as it was set. *)
Definition cn3_as (c c' : cn3) : Prop :=
  (n3_type c < 2 ^ 16 /\ n3_start c < 2 ^ 16 /\ n3_bits c < 2 ^ 16 /\ n3_signal c < 2 ^ 16 /\
   n3_offset c < 2 ^ 16 /\ n3_min c < 2 ^ 64 /\ n3_max c < 2 ^ 64 /\ n3_rate c < 2 ^ 64) /\
  (str3_ok 32 (n3_short c) /\ str3_ok 128 (n3_desc c) /\
   text3_ok (n3_comment c) /\ text3_ok (n3_long c) /\ text3_ok (n3_display c)) /\
  exists cc, ccx_opt_as (n3_cc c) cc /\
    c' = mkCn3 (n3_type c) (n3_short c) (n3_desc c) (n3_start c) (n3_bits c) (n3_signal c) (n3_valid c)
           (n3_min c) (n3_max c) (n3_rate c) (n3_offset c) (n3_comment c) (n3_long c) (n3_display c) cc.

(** A channel group: everything but the sample reductions. *)
Definition cg3_as (g g' : cg3) : Prop :=
  g3_id g < 2 ^ 16 /\ g3_size g < 2 ^ 16 /\ g3_nof g < 2 ^ 32 /\ text3_ok (g3_comment g) /\
  exists cns, Forall2 cn3_as (g3_cns g) cns /\
    g' = mkCg3 (g3_id g) (g3_size g) (g3_nof g) 0 cns (g3_comment g).

(** A data group: record ids are used if there is more than one channel group. *)
Definition dgb3_as (d d' : dgb3) : Prop :=
  d3_link d < 2 ^ 32 /\ N.of_nat (length (d3_cgs d)) < 2 ^ 16 /\
  exists cgs, Forall2 cg3_as (d3_cgs d) cgs /\
    d' = mkDgb3 (if 1 <? N.of_nat (length (d3_cgs d)) then 1 else 0) (d3_link d) cgs.

Definition time3_ok (t : time3) : Prop :=
  str3_ok 10 (t3_date t) /\ str3_ok 8 (t3_time t) /\ str3_ok 32 (t3_timer t) /\
  t3_ns t < 2 ^ 64 /\ t3_offset t < 2 ^ 16 /\ t3_quality t < 2 ^ 16.

Definition hd3_as (h h' : hd3) : Prop :=
  time3_ok (h3_time h) /\
  (str3_ok 32 (h3_author h) /\ str3_ok 32 (h3_org h) /\ str3_ok 32 (h3_project h) /\ str3_ok 32 (h3_subject h)) /\
  text3_ok (h3_comment h) /\
  exists dgs, Forall2 dgb3_as (h3_dgs h) dgs /\
    h' = mkHd3 (h3_time h) (h3_author h) (h3_org h) (h3_project h) (h3_subject h) (h3_comment h) dgs.

(** Enough iterations for the loops over the lists of blocks. *)
Definition cg3_fuel (fuel : nat) (g : cg3) : Prop := (length (g3_cns g) <= fuel)%nat.
Definition dgb3_fuel (fuel : nat) (d : dgb3) : Prop :=
  (length (d3_cgs d) <= fuel)%nat /\ Forall (cg3_fuel fuel) (d3_cgs d).
Definition hd3_fuel (fuel : nat) (h : hd3) : Prop :=
  (length (h3_dgs h) <= fuel)%nat /\ Forall (dgb3_fuel fuel) (h3_dgs h).
