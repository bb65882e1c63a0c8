(** Specification vocabulary for attachments. *)
From Verif Require Import Base MetaModel MetaSpec Md5Spec AttModel.
Local Open Scope N_scope.

(** zlib: a stream that it made is understood, to its end. *)
Definition zip_ok (deflate : list N -> list N) (inflate : list N -> list N * bool) : Prop :=
  forall x, x <> [] -> deflate x <> [] /\ inflate (deflate x) = (x, true).

(** What the program may set: the flags embedded and compressed, the creator, the name of the file,
    its type and a comment. *)
Definition new_attachment (a : at4) : Prop :=
  x_flags a < 4 /\ u16 (x_creator a) /\ x_md5 a = [] /\ x_size a = 0 /\ x_data a = [] /\
  text_ok (x_name a) /\ text_ok (x_type a) /\ comment_ok (x_md a).

(** The file can be attached: it is there, it has bytes and, when it is to be embedded and compressed,
    the compressed bytes are not more than the file, or than 100. *)
Definition attachable (deflate : list N -> list N) (fs : fsys) (a : at4) : Prop :=
  exists content, fs (x_name a) = Some content /\ content <> [] /\
    N.of_nat (length content) < 2 ^ 64 /\
    (embedded (x_flags a) = true -> compressed (x_flags a) = true ->
     (length (deflate content) <= Nat.max (length content) 100)%nat).

(** What the reader shows of an attachment [a] of a file that held [content]. *)
Definition shows (a : at4) (content : list N) (k : ath) : Prop :=
  k_name k = x_name a /\ k_type k = x_type a /\ k_md k = x_md a /\ k_creator k = x_creator a /\
  embedded (k_flags k) = embedded (x_flags a) /\ compressed (k_flags k) = compressed (x_flags a) /\
  k_size k = N.of_nat (length content) /\ md5_text k = Some (hex_text (rfc_md5 content)).
