(** Model of the MD5 checksum, mdflib/src/cryptoutil.cpp. Words are 32-bit unsigned numbers (MD5_u32 is
    unsigned int), unsigned long has 64 bits. *)
From Verif Require Import Base.
Local Open Scope N_scope.

(** cryptoutil.cpp:25-28, the macros F, G, H and I; ~ is taken on 32 bits. *)
Definition not32 (x : N) : N := N.lxor x 0xFFFFFFFF.
Inductive fn : Type := FnF | FnG | FnH | FnI.
Definition apply_fn (f : fn) (x y z : N) : N :=
  match f with
  | FnF => N.lxor z (N.land x (N.lxor y z))
  | FnG => N.lxor y (N.land z (N.lxor x y))
  | FnH => N.lxor (N.lxor x y) z
  | FnI => N.lxor y (N.lor x (not32 z))
  end.

(** The variables a, b, c, d of body, cryptoutil.cpp:60. *)
Inductive reg : Type := RA | RB | RC | RD.
Record regs : Type := mkRegs { va : N; vb : N; vc : N; vd : N }.
Definition get_reg (r : reg) (s : regs) : N :=
  match r with RA => va s | RB => vb s | RC => vc s | RD => vd s end.
Definition set_reg (r : reg) (v : N) (s : regs) : regs :=
  match r with
  | RA => mkRegs v (vb s) (vc s) (vd s)
  | RB => mkRegs (va s) v (vc s) (vd s)
  | RC => mkRegs (va s) (vb s) v (vd s)
  | RD => mkRegs (va s) (vb s) (vc s) v
  end.

(** One use of the macro STEP: function, the four variables, word of the block, constant, shift. *)
Record row : Type := mkRow {
  r_f : fn; r_a : reg; r_b : reg; r_c : reg; r_d : reg; r_x : nat; r_t : N; r_s : N }.

(** cryptoutil.cpp:29-32 STEP; every operation is on 32 bits. *)
Definition step (x : nat -> N) (s : regs) (r : row) : regs :=
  let a := get_reg (r_a r) s in
  let b := get_reg (r_b r) s in
  let c := get_reg (r_c r) s in
  let d := get_reg (r_d r) s in
  let a1 := w32 (a + w32 (w32 (apply_fn (r_f r) b c d + x (r_x r)) + r_t r)) in
  let a2 := N.lor (w32 (N.shiftl a1 (r_s r))) (N.shiftr (N.land a1 0xFFFFFFFF) (32 - r_s r)) in
  let a3 := w32 (a2 + b) in
  set_reg (r_a r) a3 s.

(** cryptoutil.cpp:76-139, the 64 steps as they are written. *)
Definition rows : list row :=
  [ mkRow FnF RA RB RC RD 0%nat 0xd76aa478 7
  ; mkRow FnF RD RA RB RC 1%nat 0xe8c7b756 12
  ; mkRow FnF RC RD RA RB 2%nat 0x242070db 17
  ; mkRow FnF RB RC RD RA 3%nat 0xc1bdceee 22
  ; mkRow FnF RA RB RC RD 4%nat 0xf57c0faf 7
  ; mkRow FnF RD RA RB RC 5%nat 0x4787c62a 12
  ; mkRow FnF RC RD RA RB 6%nat 0xa8304613 17
  ; mkRow FnF RB RC RD RA 7%nat 0xfd469501 22
  ; mkRow FnF RA RB RC RD 8%nat 0x698098d8 7
  ; mkRow FnF RD RA RB RC 9%nat 0x8b44f7af 12
  ; mkRow FnF RC RD RA RB 10%nat 0xffff5bb1 17
  ; mkRow FnF RB RC RD RA 11%nat 0x895cd7be 22
  ; mkRow FnF RA RB RC RD 12%nat 0x6b901122 7
  ; mkRow FnF RD RA RB RC 13%nat 0xfd987193 12
  ; mkRow FnF RC RD RA RB 14%nat 0xa679438e 17
  ; mkRow FnF RB RC RD RA 15%nat 0x49b40821 22
  ; mkRow FnG RA RB RC RD 1%nat 0xf61e2562 5
  ; mkRow FnG RD RA RB RC 6%nat 0xc040b340 9
  ; mkRow FnG RC RD RA RB 11%nat 0x265e5a51 14
  ; mkRow FnG RB RC RD RA 0%nat 0xe9b6c7aa 20
  ; mkRow FnG RA RB RC RD 5%nat 0xd62f105d 5
  ; mkRow FnG RD RA RB RC 10%nat 0x02441453 9
  ; mkRow FnG RC RD RA RB 15%nat 0xd8a1e681 14
  ; mkRow FnG RB RC RD RA 4%nat 0xe7d3fbc8 20
  ; mkRow FnG RA RB RC RD 9%nat 0x21e1cde6 5
  ; mkRow FnG RD RA RB RC 14%nat 0xc33707d6 9
  ; mkRow FnG RC RD RA RB 3%nat 0xf4d50d87 14
  ; mkRow FnG RB RC RD RA 8%nat 0x455a14ed 20
  ; mkRow FnG RA RB RC RD 13%nat 0xa9e3e905 5
  ; mkRow FnG RD RA RB RC 2%nat 0xfcefa3f8 9
  ; mkRow FnG RC RD RA RB 7%nat 0x676f02d9 14
  ; mkRow FnG RB RC RD RA 12%nat 0x8d2a4c8a 20
  ; mkRow FnH RA RB RC RD 5%nat 0xfffa3942 4
  ; mkRow FnH RD RA RB RC 8%nat 0x8771f681 11
  ; mkRow FnH RC RD RA RB 11%nat 0x6d9d6122 16
  ; mkRow FnH RB RC RD RA 14%nat 0xfde5380c 23
  ; mkRow FnH RA RB RC RD 1%nat 0xa4beea44 4
  ; mkRow FnH RD RA RB RC 4%nat 0x4bdecfa9 11
  ; mkRow FnH RC RD RA RB 7%nat 0xf6bb4b60 16
  ; mkRow FnH RB RC RD RA 10%nat 0xbebfbc70 23
  ; mkRow FnH RA RB RC RD 13%nat 0x289b7ec6 4
  ; mkRow FnH RD RA RB RC 0%nat 0xeaa127fa 11
  ; mkRow FnH RC RD RA RB 3%nat 0xd4ef3085 16
  ; mkRow FnH RB RC RD RA 6%nat 0x04881d05 23
  ; mkRow FnH RA RB RC RD 9%nat 0xd9d4d039 4
  ; mkRow FnH RD RA RB RC 12%nat 0xe6db99e5 11
  ; mkRow FnH RC RD RA RB 15%nat 0x1fa27cf8 16
  ; mkRow FnH RB RC RD RA 2%nat 0xc4ac5665 23
  ; mkRow FnI RA RB RC RD 0%nat 0xf4292244 6
  ; mkRow FnI RD RA RB RC 7%nat 0x432aff97 10
  ; mkRow FnI RC RD RA RB 14%nat 0xab9423a7 15
  ; mkRow FnI RB RC RD RA 5%nat 0xfc93a039 21
  ; mkRow FnI RA RB RC RD 12%nat 0x655b59c3 6
  ; mkRow FnI RD RA RB RC 3%nat 0x8f0ccc92 10
  ; mkRow FnI RC RD RA RB 10%nat 0xffeff47d 15
  ; mkRow FnI RB RC RD RA 1%nat 0x85845dd1 21
  ; mkRow FnI RA RB RC RD 8%nat 0x6fa87e4f 6
  ; mkRow FnI RD RA RB RC 15%nat 0xfe2ce6e0 10
  ; mkRow FnI RC RD RA RB 6%nat 0xa3014314 15
  ; mkRow FnI RB RC RD RA 13%nat 0x4e0811a1 21
  ; mkRow FnI RA RB RC RD 4%nat 0xf7537e82 6
  ; mkRow FnI RD RA RB RC 11%nat 0xbd3af235 10
  ; mkRow FnI RC RD RA RB 2%nat 0x2ad7d2bb 15
  ; mkRow FnI RB RC RD RA 9%nat 0xeb86d391 21 ].

(** cryptoutil.cpp:34-43 SET and GET: word n of the 64 bytes at ptr, little endian. *)
Definition word_at (ptr : list N) (n : nat) : N := le_num (slice (4 * n) 4 ptr).

(** cryptoutil.cpp:70-147, one iteration of the do loop. *)
Definition body_once (ptr : list N) (s : regs) : regs :=
  let e := fold_left (step (word_at ptr)) rows s in
  mkRegs (w32 (va e + va s)) (w32 (vb e + vb s)) (w32 (vc e + vc s)) (w32 (vd e + vd s)).

(** cryptoutil.cpp:58-155 body, with the number of 64 byte blocks instead of the number of bytes (the
    callers give a positive multiple of 64); reading behind the data is undefined. Returns the
    variables and the rest of the data. *)
Fixpoint body (blocks : nat) (ptr : list N) (s : regs) : res (regs * list N) :=
  match blocks with
  | O => Ok (s, ptr)
  | S k => if (length ptr <? 64)%nat then UB else body k (skipn 64 ptr) (body_once ptr s)
  end.

(** cryptoutil.cpp:47-52 MD5_CTX; the member block is a copy of the data used by GET only. *)
Record md5_ctx : Type := mkCtx { c_lo : N; c_hi : N; c_regs : regs; c_buf : list N }.

(** cryptoutil.cpp:157-165 MD5_Init. The context is zero before (line 257). *)
Definition md5_init : md5_ctx :=
  mkCtx 0 0 (mkRegs 0x67452301 0xefcdab89 0x98badcfe 0x10325476) (repeat 0 64).

(** memcpy or memset into ctx->buffer. *)
Definition into (buf : list N) (off : nat) (src : list N) : res (list N) :=
  match wr buf (N.of_nat off) src with Some b => Ok b | None => UB end.

(** cryptoutil.cpp:189-194, the end of MD5_Update: whole blocks, then the rest. *)
Definition update_rest (lo hi : N) (s : regs) (buf data : list N) : res md5_ctx :=
  bind (if (64 <=? length data)%nat then body (length data / 64) data s else Ok (s, data))
    (fun p => bind (into buf 0 (snd p)) (fun buf' => Ok (mkCtx lo hi (fst p) buf'))).

(** cryptoutil.cpp:167-195 MD5_Update. *)
Definition md5_update (ctx : md5_ctx) (data : list N) : res md5_ctx :=
  let size := N.of_nat (length data) in
  let lo := N.land (w64 (c_lo ctx + size)) 0x1FFFFFFF in
  let hi1 := if lo <? c_lo ctx then w32 (c_hi ctx + 1) else c_hi ctx in
  let hi := w32 (hi1 + N.shiftr size 29) in
  let used := N.to_nat (N.land (c_lo ctx) 0x3F) in
  if (used =? 0)%nat then update_rest lo hi (c_regs ctx) (c_buf ctx) data else
  let free := (64 - used)%nat in
  if (length data <? free)%nat
  then bind (into (c_buf ctx) used data) (fun buf => Ok (mkCtx lo hi (c_regs ctx) buf))
  else bind (into (c_buf ctx) used (firstn free data)) (fun buf =>
       bind (body 1 buf (c_regs ctx)) (fun p =>
       update_rest lo hi (fst p) buf (skipn free data))).

(** The bytes of a word, cryptoutil.cpp:213-220 and 222-237. *)
Definition word_bytes (v : N) : list N :=
  [ w8 v; w8 (N.shiftr v 8); w8 (N.shiftr v 16); w8 (N.shiftr v 24) ].

(** cryptoutil.cpp:197-239 MD5_Final. *)
Definition md5_final (ctx : md5_ctx) : res (list N) :=
  let used := N.to_nat (N.land (c_lo ctx) 0x3F) in
  bind (into (c_buf ctx) used [0x80]) (fun buf1 =>
  let used := S used in
  let free := (64 - used)%nat in
  bind (if (free <? 8)%nat
        then bind (into buf1 used (repeat 0 free)) (fun b =>
             bind (body 1 b (c_regs ctx)) (fun p => Ok (fst p, b, 0%nat, 64%nat)))
        else Ok (c_regs ctx, buf1, used, free))
    (fun '(s, b, used, free) =>
  bind (into b used (repeat 0 (free - 8))) (fun b =>
  let lo := w32 (N.shiftl (c_lo ctx) 3) in
  bind (into b 56 (word_bytes lo)) (fun b =>
  bind (into b 60 (word_bytes (c_hi ctx))) (fun b =>
  bind (body 1 b s) (fun p =>
  let e := fst p in
  Ok (word_bytes (va e) ++ word_bytes (vb e) ++ word_bytes (vc e) ++ word_bytes (vd e)))))))).

Fixpoint md5_updates (ctx : md5_ctx) (chunks : list (list N)) : res md5_ctx :=
  match chunks with
  | [] => Ok ctx
  | d :: r => bind (md5_update ctx d) (fun c => md5_updates c r)
  end.

(** cryptoutil.cpp:244-284 CreateMd5FileChecksum of a file that opens; [chunks] are the byte strings
    that fread returns. *)
Definition md5_checksum (chunks : list (list N)) : res (list N) :=
  bind (md5_updates md5_init chunks) md5_final.

(** std::hex, std::uppercase: one hexadecimal digit as its character code. *)
Definition hex_digit (v : N) : N := if v <? 10 then 48 + v else 55 + v.

(** cryptoutil.cpp:286-297 CreateMd5FileString: setw(2) and setfill('0') for each byte. *)
Definition md5_string (chunks : list (list N)) : res (list N) :=
  bind (md5_checksum chunks)
    (fun sum => Ok (flat_map (fun b => [hex_digit (b / 16); hex_digit (b mod 16)]) sum)).
