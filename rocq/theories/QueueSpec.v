(** Specification vocabulary for the queue and the writers (C16, C20-C25): what is accepted, what
    records the accepted samples stand for. Nothing here refers to the worker's state. *)
From Verif Require Import Base StreamModel StreamSpec QueueModel.
Local Open Scope N_scope.

(** The samples accepted in a schedule, in order. *)
Fixpoint saved (sch : list act) : list sample :=
  match sch with
  | [] => []
  | Save s :: r => s :: saved r
  | Work :: r => saved r
  end.

Fixpoint zsaved (sch : list zact) : list sample :=
  match sch with
  | [] => []
  | ZSave s :: r => s :: zsaved r
  | ZWork _ :: r => zsaved r
  end.

(** [c] is an interleaving of [a] and [b]. *)
Inductive shuffle {A : Type} : list A -> list A -> list A -> Prop :=
| sh_nil : shuffle [] [] []
| sh_l : forall x a b c, shuffle a b c -> shuffle (x :: a) b (x :: c)
| sh_r : forall x a b c, shuffle a b c -> shuffle a (x :: b) (x :: c).

Definition total_size (l : list sample) : N := fold_right (fun s acc => sample_size s + acc) 0 l.

(** The channel group of a sample and the VLSD group of its variable length value. *)
Definition group_of (d : dgroup) (s : sample) : option N := option_map g_id (find_cg_record_id d (s_id s)).

Definition in_vlsd (d : dgroup) (v : N) (s : sample) : bool :=
  match vlsd_group d s with Some g => g_id g =? v | None => false end.

(** The variable length values stored in VLSD group [v] by the samples [l], in order. *)
Definition group_values (d : dgroup) (v : N) (l : list sample) : list (list N) :=
  map s_vbuf (filter (in_vlsd d v) l).

(** Samples whose value goes to the signal data of channel group [g]. *)
Definition in_sd (d : dgroup) (has_sd : N -> bool) (g : N) (s : sample) : bool :=
  s_has s && has_sd g
  && match vlsd_group d s with Some _ => false | None => true end
  && match group_of d s with Some i => i =? g | None => false end.

Definition sd_values (d : dgroup) (has_sd : N -> bool) (g : N) (l : list sample) : list (list N) :=
  map s_vbuf (filter (in_sd d has_sd g) l).

(** Total length of length-prefixed values: the offset of the next one. *)
Definition chunks_len (l : list (list N)) : N := fold_right (fun p acc => 4 + N.of_nat (length p) + acc) 0 l.

(** The records a sample [s] stands for when [prev] were stored before: its variable length value
    first, then the record with the offset of that value in its last 8 bytes. *)
Definition sample_records (d : dgroup) (has_sd : N -> bool) (prev : list sample) (s : sample) : list srec :=
  match group_of d s with
  | None => []
  | Some g =>
      match vlsd_group d s with
      | Some v =>
          [Rec (g_id v) (s_vbuf s);
           Rec g (patch_index (s_rec s) (chunks_len (group_values d (g_id v) prev)))]
      | None =>
          if s_has s && has_sd g
          then [Rec g (patch_index (s_rec s) (chunks_len (sd_values d has_sd g prev)))]
          else [Rec g (s_rec s)]
      end
  end.

Fixpoint records_from (d : dgroup) (has_sd : N -> bool) (prev l : list sample) : list srec :=
  match l with
  | [] => []
  | s :: r => sample_records d has_sd prev s ++ records_from d has_sd (prev ++ [s]) r
  end.

Definition records_of (d : dgroup) (has_sd : N -> bool) (l : list sample) : list srec :=
  records_from d has_sd [] l.

(** A sample of an ordinary group of the data group, with that group's record size. *)
Definition sample_ok (d : dgroup) (s : sample) : Prop :=
  (exists g, In g (d_groups d) /\ g_id g = s_id s /\ g_vlsd g = false /\ length (s_rec s) = rec_size g)
  /\ N.of_nat (length (s_vbuf s)) < 2 ^ 32.

(** The data group with the counters the writer leaves in its groups. *)
Definition with_counts (d : dgroup) (e : enc) : dgroup :=
  mkDg (d_idsize d)
    (map (fun g => if g_vlsd g
                   then mkGroup (g_id g) true (w32 (e_tot e (g_id g))) (e_tot e (g_id g) / 2 ^ 32) (e_cnt e (g_id g))
                   else mkGroup (g_id g) false (g_data g) (g_inval g) (e_cnt e (g_id g)))
         (d_groups d)).

(** Every block of a list carries the number of bytes in the blocks before it (as a 64-bit
    number). *)
Definition offsets_right (l : list (N * list N)) : Prop :=
  forall pre o b post, l = pre ++ (o, b) :: post -> o = w64 (N.of_nat (length (concat (map snd pre)))).

(** Time stamps in the order of saving. *)
Fixpoint sorted_ts (l : list sample) : Prop :=
  match l with
  | a :: ((b :: _) as r) => s_ts a <= s_ts b /\ sorted_ts r
  | _ => True
  end.

(** Settings under which trimming has nothing to do for the samples [l]: the converter (which does
    not trim), or a started measurement with no sample older than the pre-trigger window. *)
Definition keeps_all (c : cfg) (l : list sample) : Prop :=
  c_trim c = false \/
  (0 < c_start c /\ c_pre c <= c_start c /\ c_start c < 2 ^ 64 /\
   forall s, In s l -> c_start c - c_pre c <= s_ts s).
