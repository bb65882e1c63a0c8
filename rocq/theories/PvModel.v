(** Model of the typed values of a property: the application declares the data type of an MdProperty, sets
    a number, a flag or a text, and asks for the value as a number, a flag or a text, before or after the
    comment with the property was stored and read.

    The property itself, and its way through the XML text, are those of CommentModel.v; the printing and
    reading of times are those of TimeModel.v, hexadecimal numbers those of NoteModel.v.

    Simplification: floating point values (std::to_string and operator>> of double) are not modelled. *)
From Coq Require Import String.
From Verif Require Import Base BlockModel TimeModel XmlModel CommentModel NoteModel UnitModel.
Local Open Scope N_scope.
Local Open Scope list_scope.

(** mdproperty.cpp:62-64 DataType. *)
Definition with_type (t : N) (p : mprop) : mprop :=
  mkProp (p_std p) (p_name p) (p_desc p) (p_unit p) (p_ref p) t (p_ro p) (p_value p).
(** mdproperty.cpp:156-159 Value(std::string). *)
Definition with_value (v : list N) (p : mprop) : mprop :=
  mkProp (p_std p) (p_name p) (p_desc p) (p_unit p) (p_ref p) (p_type p) (p_ro p) v.

(** mdproperty.cpp:161-164 Value(bool). *)
Definition flag_text (b : bool) : list N := if b then lit "true" else lit "false".
Definition set_flag (b : bool) (p : mprop) : mprop := with_value (flag_text b) p.

(** mdproperty.cpp:166-204 Value(uint64_t), by the data type: 4 boolean, 5 date, 6 time, 7 date and time,
    8 hexadecimal. *)
Definition value_text_of (type v : N) : list N :=
  if type =? 5 then to_iso_date v
  else if type =? 6 then to_iso_time true v
  else if type =? 7 then to_iso_date_time true v
  else if type =? 4 then flag_text (0 <? v)
  else if type =? 8 then hex_text v
  else int_text (Z.of_N v).
Definition set_number (v : N) (p : mprop) : mprop := with_value (value_text_of (p_type p) v) p.

(** mdproperty.h:81-84 Value(T) for the signed integers: std::to_string. *)
Definition set_signed (z : Z) (p : mprop) : mprop := with_value (int_text z) p.

(** mdproperty.cpp:206-209 Value<std::string>. *)
Definition get_text (p : mprop) : list N := p_value p.

(** mdproperty.cpp:232-238: std::stoull of a text that is not empty; an exception gives 0. *)
Definition plain_number (s : list N) : N :=
  match s with
  | [] => 0
  | _ => match CommentModel.stoull s with Some v => v | None => 0 end
  end.
(** mdproperty.cpp:211-239 Value<uint64_t>; [now] is the present time, which UtcTimestamp has before it
    reads the text (timestamp.cpp:24-33). *)
Definition get_number (now : N) (p : mprop) : res N :=
  if p_type p =? 2 then
    match after_0x (p_value p) with
    | Some h => Ok (match stoull16 h with Some v => v | None => 0 end)
    | None => Ok (plain_number (p_value p))
    end
  else if p_type p =? 7 then from_iso now (p_value p)
  else Ok (plain_number (p_value p)).

(** mdproperty.h:95-105 Value<T> for the signed integers: operator>> of an istringstream, which skips white
    space, limits a number that does not fit, and gives 0 without a number. [lo] and [hi] are the limits of
    the type. *)
Definition get_signed (lo hi : Z) (p : mprop) : Z := Z.max lo (Z.min hi (read_int (ltrim (p_value p)))).

(** mdproperty.cpp:241-258 Value<bool>. *)
Definition get_flag (p : mprop) : bool :=
  match p_value p with
  | c :: _ => (c =? 49) || (c =? 116) || (c =? 84)
  | [] => false
  end.

(** ** The date of a revision of the unit specification *)

(** horevision.cpp:46-49 DateNs(uint64_t). *)
Definition set_date_ns (ns : N) (r : revis) : revis :=
  mkRv (rv_member r) (rv_label r) (rv_state r) (to_iso_date_time false ns) (rv_cos r) (rv_mods r).
(** horevision.cpp:51-54 DateNs; a UtcTimestamp made from a text is 0 before (timestamp.cpp:40-43). *)
Definition date_ns (r : revis) : res N := from_iso 0 (rv_date r).
