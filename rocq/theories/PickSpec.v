(** What the properties of the reader's choice of observers speak about. *)
From Verif Require Import Base ChannelModel XmlSpec PickModel.
Local Open Scope N_scope.

(** The channel at place [i] of the group at place [g] has [name], letters of either case, and its group
    has [samples] samples. *)
Definition named (gs : list cgroup) (name : list N) (g i : nat) (samples : N) : Prop :=
  exists x n, nth_error gs g = Some x /\ nth_error (g_names x) i = Some n /\
    alike name n /\ g_samples x = samples.

(** Place (g, i) comes before place (g', i'). *)
Definition before (p q : nat * nat) : Prop :=
  (fst p < fst q)%nat \/ (fst p = fst q /\ (snd p < snd q)%nat).

(** The casts between float formats keep the values that the narrower format can hold. *)
Definition casts_exact (half_to_double float_to_double double_to_float : N -> N) : Prop :=
  (forall u, u < 2 ^ 32 -> float_to_double (double_to_float (float_to_double u)) = float_to_double u) /\
  (forall u, u < 2 ^ 16 -> float_to_double (double_to_float (half_to_double u)) = half_to_double u).
