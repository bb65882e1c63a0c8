(** Specification vocabulary for calls that are interrupted. *)
From Verif Require Import Base BlockModel MetaModel QueueModel MeasModel MeasSpec.
Local Open Scope N_scope.

(** [g] with counters that are each those of [c] or those of [c']. *)
Definition between (c c' : option enc) (g g2 : cg) : Prop :=
  exists s da di, g2 = mkCg (g_record g) s (g_flags g) (g_separator g) da di (g_name g) (g_si g) (g_md g) (g_cns g) /\
    (s = g_samples (counted c g) \/ s = g_samples (counted c' g)) /\
    (da = g_data (counted c g) \/ da = g_data (counted c' g)) /\
    (di = g_inval (counted c g) \/ di = g_inval (counted c' g)).
