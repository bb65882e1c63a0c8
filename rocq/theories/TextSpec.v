(** Specification vocabulary for text: UTF-8 and UTF-16 as in RFC 3629 and RFC 2781, by arithmetic. *)
From Verif Require Import Base.
Local Open Scope N_scope.

(** A C string ends at the first zero. *)
Inductive c_string : list N -> list N -> Prop :=
| c_all : forall s, ~ In 0 s -> c_string s s
| c_cut : forall s t, ~ In 0 s -> c_string (s ++ 0 :: t) s.

(** A Unicode scalar value. *)
Definition scalar (cp : N) : Prop := cp < 55296 \/ 57344 <= cp <= 1114111.

(** UTF-8 of one code point. *)
Definition utf8 (cp : N) : list N :=
  if cp <? 128 then [cp]
  else if cp <? 2048 then [192 + cp / 64; 128 + cp mod 64]
  else if cp <? 65536 then [224 + cp / 4096; 128 + cp / 64 mod 64; 128 + cp mod 64]
  else [240 + cp / 262144; 128 + cp / 4096 mod 64; 128 + cp / 64 mod 64; 128 + cp mod 64].

Definition utf8_text (cps : list N) : list N := concat (map utf8 cps).

(** The number of bytes a first byte announces: 1 also for a byte that starts no sequence. *)
Definition announced (lead : N) : nat :=
  if (192 <=? lead) && (lead <=? 223) then 2
  else if (224 <=? lead) && (lead <=? 239) then 3
  else if (240 <=? lead) && (lead <=? 247) then 4
  else 1.

(** UTF-16 of one code point. *)
Definition utf16 (cp : N) : list N :=
  if cp <? 65536 then [cp] else [55296 + (cp - 65536) / 1024; 56320 + (cp - 65536) mod 1024].

Definition utf16_text (cps : list N) : list N := concat (map utf16 cps).

(** 16-bit numbers as bytes. *)
Definition bytes16 (big : bool) (us : list N) : list N :=
  concat (map (fun u => if big then be_bytes 2 u else le_bytes 2 u) us).
