(** Specification of MD5, after RFC 1321. *)
From Verif Require Import Base.
Local Open Scope N_scope.

(** 3.1 and 3.2: a single 1 bit, zeros up to 56 bytes modulo 64, then the number of bits of the
    message as 64 bits, low-order word first, modulo 2^64. *)
Definition pad_zeros (n : nat) : nat := (119 - n mod 64) mod 64.
Definition rfc_pad (m : list N) : list N :=
  m ++ [128] ++ repeat 0 (pad_zeros (length m)) ++ le_bytes 8 ((8 * N.of_nat (length m)) mod 2 ^ 64).

(** 3.4: the auxiliary functions on words of 32 bits, with "not" as the bitwise complement. *)
Definition neg (x : N) : N := 2 ^ 32 - 1 - x.
Definition rfc_f (i : nat) (x y z : N) : N :=
  match (i / 16)%nat with
  | 0%nat => N.lor (N.land x y) (N.land (neg x) z)
  | 1%nat => N.lor (N.land x z) (N.land y (neg z))
  | 2%nat => N.lxor (N.lxor x y) z
  | _ => N.lxor y (N.lor x (neg z))
  end.

(** Which word of the block, which constant and which shift operation i of 0..63 uses. *)
Definition rfc_k (i : nat) : nat :=
  match (i / 16)%nat with
  | 0%nat => i
  | 1%nat => (5 * i + 1) mod 16
  | 2%nat => (3 * i + 5) mod 16
  | _ => (7 * i) mod 16
  end.
Definition rfc_s (i : nat) : N :=
  nth (i mod 4) (nth (i / 16) [[7; 12; 17; 22]; [5; 9; 14; 20]; [4; 11; 16; 23]; [6; 10; 15; 21]] []) 0.

(** The integer part of 4294967296 times abs(sin(i + 1)), i + 1 in radians. *)
Definition rfc_t (i : nat) : N :=
  nth i
  [
    3614090360; 3905402710; 606105819; 3250441966; 4118548399; 1200080426; 2821735955;
    4249261313; 1770035416; 2336552879; 4294925233; 2304563134; 1804603682; 4254626195;
    2792965006; 1236535329; 4129170786; 3225465664; 643717713; 3921069994; 3593408605; 38016083;
    3634488961; 3889429448; 568446438; 3275163606; 4107603335; 1163531501; 2850285829;
    4243563512; 1735328473; 2368359562; 4294588738; 2272392833; 1839030562; 4259657740;
    2763975236; 1272893353; 4139469664; 3200236656; 681279174; 3936430074; 3572445317; 76029189;
    3654602809; 3873151461; 530742520; 3299628645; 4096336452; 1126891415; 2878612391;
    4237533241; 1700485571; 2399980690; 4293915773; 2240044497; 1873313359; 4264355552;
    2734768916; 1309151649; 4149444226; 3174756917; 718787259; 3951481745 ] 0.

(** X <<< s, the 32-bit rotation to the left. *)
Definition rotl (x s : N) : N := (x * 2 ^ s) mod 2 ^ 32 + x / 2 ^ (32 - s).

(** One operation: a = b + ((a + f(b,c,d) + X[k] + T[i]) <<< s), and the names of the words rotate. *)
Definition quad : Type := (N * N * N * N)%type.
Definition rfc_op (x : nat -> N) (q : quad) (i : nat) : quad :=
  let '(a, b, c, d) := q in
  (d, (b + rotl ((a + rfc_f i b c d + x (rfc_k i) + rfc_t i) mod 2 ^ 32) (rfc_s i)) mod 2 ^ 32, b, c).

(** A block of 64 bytes: 64 operations, then the sum with the previous value. *)
Definition rfc_block (q : quad) (block : list N) : quad :=
  let x := fun k => le_num (slice (4 * k) 4 block) in
  let '(a, b, c, d) := q in
  let '(a', b', c', d') := fold_left (rfc_op x) (seq 0 64) q in
  ((a + a') mod 2 ^ 32, (b + b') mod 2 ^ 32, (c + c') mod 2 ^ 32, (d + d') mod 2 ^ 32).

(** All blocks of a padded message of n times 64 bytes. *)
Fixpoint rfc_blocks (n : nat) (q : quad) (m : list N) : quad :=
  match n with
  | O => q
  | S k => rfc_blocks k (rfc_block q (firstn 64 m)) (skipn 64 m)
  end.

(** 3.3 and 3.5: the initial words and the output, low-order bytes first. *)
Definition rfc_init : quad := (0x67452301, 0xefcdab89, 0x98badcfe, 0x10325476).
Definition rfc_md5 (m : list N) : list N :=
  let '(a, b, c, d) := rfc_blocks (length (rfc_pad m) / 64) rfc_init (rfc_pad m) in
  le_bytes 4 a ++ le_bytes 4 b ++ le_bytes 4 c ++ le_bytes 4 d.

(** The two hexadecimal digits of a byte, as characters. *)
Definition hex_char (v : N) : N := nth (N.to_nat v) [48;49;50;51;52;53;54;55;56;57;65;66;67;68;69;70] 0.
Definition hex_text (l : list N) : list N :=
  flat_map (fun b => [hex_char (b / 16); hex_char (b mod 16)]) l.
