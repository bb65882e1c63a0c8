(** What a measurement description has to satisfy to be stored, stated without the functions that
    write and read it. *)
From Verif Require Import Base BlockModel BlockSpec ConvModel MetaModel.
Local Open Scope N_scope.

Definition u8 (n : N) : Prop := n < 2 ^ 8.
Definition u16 (n : N) : Prop := n < 2 ^ 16.
Definition u32 (n : N) : Prop := n < 2 ^ 32.
Definition u64 (n : N) : Prop := n < 2 ^ 64.
Definition u64_3 (t : triple) : Prop := let '(a, b, c) := t in u64 a /\ u64 b /\ u64 c.

(** A text the file can store: without NUL and without white space at its ends. *)
Definition text_ok (t : list N) : Prop := plain_text t.
Definition comment_ok (m : option (list N)) : Prop :=
  match m with Some t => plain_text t | None => True end.

(* ------------------------------------------------------------------ *)
(** ** Arrays *)

(** The number of elements of an array with these sizes, and the number of its axis points. *)
Fixpoint elements (dims : list N) : N :=
  match dims with [] => 1 | d :: r => d * elements r end.
Fixpoint axis_points (dims : list N) : N :=
  match dims with [] => 0 | d :: r => d + axis_points r end.

(** An index into such an array, and its place in row-major order. *)
Definition in_shape (dims idx : list N) : Prop := Forall2 (fun d i => i < d) dims idx.
Fixpoint row_major (dims idx : list N) : N :=
  match dims, idx with
  | _ :: r, i :: s => i * elements r + row_major r s
  | _, _ => 0
  end.

(** A list that is used only if [use] holds, and then has [n] entries. *)
Definition sized {A} (use : bool) (n : nat) (l : list A) : Prop :=
  length l = if use then n else 0%nat.

Definition ca_ok (a : ca) : Prop :=
  let n := length (a_dims a) in
  let count := N.to_nat (elements (a_dims a)) in
  let flag k := N.testbit (a_flags a) k in
  u8 (a_type a) /\ u8 (a_storage a) /\ u32 (a_flags a) /\ u32 (a_offset a) /\ u32 (a_invalid a) /\
  N.of_nat n < 2 ^ 16 /\ Forall (fun d => 0 < d) (a_dims a) /\
  u64 (elements (a_dims a)) /\ u64 (axis_points (a_dims a)) /\
  sized (a_storage a =? 2) count (a_data a) /\ Forall u64 (a_data a) /\
  sized (flag 0) n (a_dynamic a) /\ Forall u64_3 (a_dynamic a) /\
  sized (flag 1) n (a_input a) /\ Forall u64_3 (a_input a) /\
  u64_3 (a_output a) /\ (flag 2 = false -> a_output a = (0, 0, 0)) /\
  u64_3 (a_compare a) /\ (flag 3 = false -> a_compare a = (0, 0, 0)) /\
  sized (flag 4) n (a_convs a) /\ Forall u64 (a_convs a) /\
  sized (flag 4 && negb (flag 5)) n (a_axis a) /\ Forall u64_3 (a_axis a) /\
  sized (flag 5) (N.to_nat (axis_points (a_dims a))) (a_values a) /\ Forall u64 (a_values a) /\
  sized ((a_storage a =? 1) || (a_storage a =? 2)) count (a_cycles a) /\ Forall u64 (a_cycles a).

(* ------------------------------------------------------------------ *)
(** ** Channels and groups *)

Definition si_ok (s : si) : Prop :=
  text_ok (si_name s) /\ text_ok (si_path s) /\ comment_ok (si_md s) /\
  u8 (si_type s) /\ u8 (si_bus s) /\ u8 (si_flags s).
Definition source_ok (s : option si) : Prop := match s with Some s => si_ok s | None => True end.

(** A conversion that can be stored, with all the conversions it leads to: at most 65535 values, of
    the kind its type calls for, and at most 65535 references, each to nothing, to a text, or to
    such a conversion. A text does not begin with '<', which marks XML. *)
Definition value_ok (type : N) (v : pval) : Prop :=
  match v with
  | PU n => type = tBitText /\ u64 n
  | PD _ => type <> tBitText
  end.
Inductive conv_ok : conv -> Prop :=
| conv_level : forall type nof vals dtype decimals texts ranges refs, u8 type -> u16 (N.of_nat (length vals)) ->
    Forall (value_ok type) vals -> match decimals with Some d => u8 d | None => True end ->
    u16 (N.of_nat (length refs)) -> Forall ref_ok refs ->
    conv_ok (mkConv true type nof vals dtype decimals texts ranges refs)
with ref_ok : cref -> Prop :=
| ref_none : ref_ok RNone
| ref_text : forall kind t, text_ok t -> List.hd 0 t <> 60 -> N.of_nat (length t) < 2 ^ 63 ->
    ref_ok (RText kind t)
| ref_conv : forall c, conv_ok c -> ref_ok (RConv c).

(** The object a reader has for a conversion of a channel of data type [dt]: the number of values is
    set, the texts are known to be TX blocks, and the tables of version 3 are empty. *)
Fixpoint conv_form (dt : N) (c : conv) : conv :=
  match c with
  | mkConv _ type _ vals _ decimals _ _ refs =>
      mkConv true type (N.of_nat (length vals)) vals dt decimals [] []
        (map (fun r => match r with
                       | RText _ t => RText BTx t
                       | RConv c => RConv (conv_form dt c)
                       | _ => r
                       end) refs)
  end.

Definition cnh_ok (h : cnh) : Prop :=
  (u8 (n_type h) /\ u8 (n_sync h) /\ u8 (n_dtype h) /\ u8 (n_bitoff h) /\ u32 (n_byteoff h) /\
   u32 (n_bits h) /\ u32 (n_flags h) /\ u32 (n_invalid h) /\ u8 (n_precision h)) /\
  (u64 (n_rmin h) /\ u64 (n_rmax h) /\ u64 (n_lmin h) /\ u64 (n_lmax h) /\ u64 (n_emin h) /\ u64 (n_emax h)) /\
  text_ok (n_name h) /\ comment_ok (n_unit h) /\ comment_ok (n_md h) /\ source_ok (n_si h) /\
  u16 (N.of_nat (length (n_attach h))) /\ Forall u64 (n_attach h) /\
  u64_3 (n_defx h) /\ (N.testbit (n_flags h) 12 = false -> n_defx h = (0, 0, 0)) /\
  match n_conv h with Some c => conv_ok c | None => True end.

(** The composition of a channel is a list of arrays or a list of member channels. *)
Inductive cn_ok : cn -> Prop :=
| cn_arrays : forall h arrays, cnh_ok h -> Forall ca_ok arrays -> cn_ok (mkCn h (map CArr arrays))
| cn_members : forall h members, cnh_ok h -> Forall cn_ok members -> cn_ok (mkCn h (map CSub members)).

(** The objects a reader has for a channel, a group, a measurement: as written, except for the
    conversions. *)
Definition cnh_form (h : cnh) : cnh :=
  mkCnh (n_type h) (n_sync h) (n_dtype h) (n_bitoff h) (n_byteoff h) (n_bits h) (n_flags h) (n_invalid h)
    (n_precision h) (n_rmin h) (n_rmax h) (n_lmin h) (n_lmax h) (n_emin h) (n_emax h) (n_name h) (n_unit h)
    (n_md h) (n_si h) (n_attach h) (n_defx h) (option_map (conv_form (n_dtype h)) (n_conv h)).
Fixpoint cn_form (c : cn) : cn :=
  match c with
  | mkCn h cx => mkCn (cnh_form h) (map (fun x => match x with CArr a => CArr a | CSub c => CSub (cn_form c) end) cx)
  end.

Definition cg_ok (g : cg) : Prop :=
  u64 (g_record g) /\ u64 (g_samples g) /\ u16 (g_flags g) /\ u16 (g_separator g) /\
  u32 (g_data g) /\ u32 (g_inval g) /\ text_ok (g_name g) /\ source_ok (g_si g) /\ comment_ok (g_md g) /\
  Forall cn_ok (g_cns g).

Definition cg_form (g : cg) : cg :=
  mkCg (g_record g) (g_samples g) (g_flags g) (g_separator g) (g_data g) (g_inval g) (g_name g) (g_si g) (g_md g)
    (map cn_form (g_cns g)).

Definition dg_ok (d : dg) : Prop :=
  u8 (d_idsize d) /\ u64 (d_link d) /\ comment_ok (d_md d) /\ Forall cg_ok (d_cgs d).
Definition dg_form (d : dg) : dg := mkDg (d_idsize d) (d_md d) (d_link d) (map cg_form (d_cgs d)).

(* ------------------------------------------------------------------ *)
(** ** History, attachments, hierarchies, events and the header *)

Definition stamp_ok (t : stamp4) : Prop :=
  u64 (t_ns t) /\ u16 (t_tz t) /\ u16 (t_dst t) /\ u8 (t_flags t).

Definition fh_ok (h : fh) : Prop := stamp_ok (f_time h) /\ comment_ok (f_md h).

Definition at_ok (a : at4) : Prop :=
  u16 (x_flags a) /\ u16 (x_creator a) /\ length (x_md5 a) = 16%nat /\ u64 (x_size a) /\
  text_ok (x_name a) /\ text_ok (x_type a) /\ comment_ok (x_md a).

(** Hierarchies without elements. *)
Inductive ch_ok : ch -> Prop :=
| ch_level : forall name type md subs, text_ok name -> u8 type -> comment_ok md -> Forall ch_ok subs ->
    ch_ok (mkCh name type md [] subs).

(** The flag of a group name is set if there is one. *)
Definition ev_ok (e : ev) : Prop :=
  (u8 (e_type e) /\ u8 (e_sync e) /\ u8 (e_range e) /\ u8 (e_cause e) /\ u8 (e_flags e) /\
   u16 (e_creator e) /\ u64 (e_base e) /\ u64 (e_factor e)) /\
  u64 (e_parent e) /\ u64 (e_begin e) /\
  u32 (N.of_nat (length (e_scope e))) /\ u16 (N.of_nat (length (e_attach e))) /\
  Forall u64 (e_scope e) /\ Forall u64 (e_attach e) /\
  text_ok (e_name e) /\ text_ok (e_group e) /\ comment_ok (e_md e) /\
  (e_group e <> [] -> N.testbit (e_flags e) 1 = true).

Definition hd_ok (h : hd) : Prop :=
  (stamp_ok (h_time h) /\ u8 (h_class h) /\ u8 (h_flags h) /\ u64 (h_angle h) /\ u64 (h_distance h)) /\
  comment_ok (h_md h) /\ Forall fh_ok (h_fhs h) /\ Forall at_ok (h_ats h) /\ Forall ch_ok (h_chs h) /\
  Forall ev_ok (h_evs h) /\ Forall dg_ok (h_dgs h).
Definition hd_form (h : hd) : hd :=
  mkHd (h_time h) (h_class h) (h_flags h) (h_angle h) (h_distance h) (h_md h) (h_fhs h) (h_ats h) (h_chs h)
    (h_evs h) (map dg_form (h_dgs h)).

(* ------------------------------------------------------------------ *)
(** ** Stored blocks *)

(** The block [x] is appended to every non-empty file, and is read back at its place as [y], with
    the link to the next block of its list, also after more has been appended; unless the file
    passes the 2^63 bytes a link can address. *)
Definition stored_as {T} (wr : T -> file -> res (file * nat))
    (rd : nat -> file -> nat -> res (T * N)) (x y : T) : Prop :=
  exists enough, forall fuel, (enough <= fuel)%nat -> forall f, (0 < length f)%nat ->
  exists f' pos, wr x f = Ok (f', pos) /\ firstn (length f) f' = f /\
    (N.of_nat (length f') < 2 ^ 63 -> forall g, rd fuel (f' ++ g) pos = Ok (y, 0)).
Definition stored {T} (wr : T -> file -> res (file * nat))
    (rd : nat -> file -> nat -> res (T * N)) (x : T) : Prop := stored_as wr rd x x.

(** The same for a list of blocks, from the link to its first block. *)
Definition stored_list_as {T} (wr : T -> file -> res (file * nat))
    (rd : nat -> file -> nat -> res (T * N)) (xs ys : list T) : Prop :=
  exists enough, forall fuel, (enough <= fuel)%nat -> forall f, (0 < length f)%nat ->
  exists f' l, write_chain wr None xs f = Ok (f', l) /\ firstn (length f) f' = f /\
    (N.of_nat (length f') < 2 ^ 63 -> forall g, read_chain (rd fuel) fuel (f' ++ g) l = Ok ys).
Definition stored_list {T} (wr : T -> file -> res (file * nat))
    (rd : nat -> file -> nat -> res (T * N)) (xs : list T) : Prop := stored_list_as wr rd xs xs.
