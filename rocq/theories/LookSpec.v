(** What the properties of finding and creating by name speak about. *)
From Verif Require Import Base.
Local Open Scope N_scope.

(** [part] is a part of [text]. *)
Definition part_of (part text : list N) : Prop := exists a b, text = a ++ part ++ b.

(** The member at place [i] is the first that satisfies [P]. *)
Definition first_at {A} (P : A -> Prop) (l : list A) (i : nat) : Prop :=
  (exists x, nth_error l i = Some x /\ P x) /\
  (forall j y, (j < i)%nat -> nth_error l j = Some y -> ~ P y).

(** A program of calls that create by name: the list afterwards, from an empty one. *)
Definition created (create : list (list N) -> list N -> list (list N) * nat) (calls : list (list N))
  : list (list N) := fold_left (fun l n => fst (create l n)) calls [].
