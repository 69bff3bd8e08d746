(** C78, model: ptp/ptpd2/dep/ntpengine/ntp_isc_md5.c.  Memory is octets; [big] says how the host
    stores a word.  A copy outside the context or the packet is undefined ([None]).  The casts of sizes
    to int in the copies (lines 34-39) are left out: the sizes are at most 64 there. *)
Require Import ZArith List Bool Lia.
Require Import Verif.Base.
Import ListNotations.
Open Scope Z_scope.

(** ** Memory *)
(** A word as the host stores it. *)
Definition store (big : bool) (x : Z) : list Z :=
  let l := [x mod 256; x / 2^8 mod 256; x / 2^16 mod 256; x / 2^24 mod 256] in if big then rev l else l.
Definition load (big : bool) (l : list Z) : Z :=
  match (if big then rev l else l) with [a; b; c; d] => a + 2^8 * b + 2^16 * c + 2^24 * d | _ => 0 end.
(** memcpy, memset: octets [d] to offset [off] of memory [l]. *)
Definition copy (l : list Z) (off : nat) (d : list Z) : option (list Z) :=
  if (off + length d <=? length l)%nat then Some (firstn off l ++ d ++ skipn (off + length d) l) else None.

(** byteSwap, lines 42-52: each word is read octet by octet, low order first, and stored as a word. *)
Fixpoint swap (big : bool) (words : nat) (l : list Z) : list Z :=
  match words, l with
  | S n, a :: b :: c :: d :: r => store big (u32 (Z.lor (Z.shiftl (Z.lor (Z.shiftl d 8) c) 16) (Z.lor (Z.shiftl b 8) a))) ++ swap big n r
  | _, _ => l
  end.

(** ** transform *)
(** Lines 77-81. *)
Inductive func := F1 | F2 | F3 | F4.
Definition fun1 (x y z : Z) : Z := Z.lxor z (Z.land x (Z.lxor y z)).
Definition apply (f : func) (x y z : Z) : Z :=
  match f with
  | F1 => fun1 x y z
  | F2 => fun1 z x y
  | F3 => Z.lxor (Z.lxor x y) z
  | F4 => Z.lxor y (Z.lor x (u32 (Z.lnot z)))
  end.
(** The variables a, b, c, d. *)
Inductive reg := RA | RB | RC | RD.
Definition regs := (Z * Z * Z * Z)%type.
Definition get (v : regs) (r : reg) : Z := let '(a, b, c, d) := v in match r with RA => a | RB => b | RC => c | RD => d end.
Definition put (v : regs) (r : reg) (x : Z) : regs :=
  let '(a, b, c, d) := v in match r with RA => (x, b, c, d) | RB => (a, x, c, d) | RC => (a, b, x, d) | RD => (a, b, c, x) end.
(** MD5STEP, lines 84-86, with in[i] + k as its argument in. *)
Record mstep := stp { p_f : func; p_w : reg; p_x : reg; p_y : reg; p_z : reg; p_i : nat; p_k : Z; p_s : Z }.
Definition md5step (inp : list Z) (v : regs) (p : mstep) : regs :=
  let w1 := u32 (get v (p_w p) + u32 (apply (p_f p) (get v (p_x p)) (get v (p_y p)) (get v (p_z p)) + u32 (nth (p_i p) inp 0 + p_k p))) in
  put v (p_w p) (u32 (Z.lor (u32 (Z.shiftl w1 (p_s p))) (Z.shiftr w1 (32 - p_s p)) + get v (p_x p))).
(** Lines 102-168. *)
Definition steps : list mstep :=
  [stp F1 RA RB RC RD 0 0xd76aa478 7;
   stp F1 RD RA RB RC 1 0xe8c7b756 12;
   stp F1 RC RD RA RB 2 0x242070db 17;
   stp F1 RB RC RD RA 3 0xc1bdceee 22;
   stp F1 RA RB RC RD 4 0xf57c0faf 7;
   stp F1 RD RA RB RC 5 0x4787c62a 12;
   stp F1 RC RD RA RB 6 0xa8304613 17;
   stp F1 RB RC RD RA 7 0xfd469501 22;
   stp F1 RA RB RC RD 8 0x698098d8 7;
   stp F1 RD RA RB RC 9 0x8b44f7af 12;
   stp F1 RC RD RA RB 10 0xffff5bb1 17;
   stp F1 RB RC RD RA 11 0x895cd7be 22;
   stp F1 RA RB RC RD 12 0x6b901122 7;
   stp F1 RD RA RB RC 13 0xfd987193 12;
   stp F1 RC RD RA RB 14 0xa679438e 17;
   stp F1 RB RC RD RA 15 0x49b40821 22;
   stp F2 RA RB RC RD 1 0xf61e2562 5;
   stp F2 RD RA RB RC 6 0xc040b340 9;
   stp F2 RC RD RA RB 11 0x265e5a51 14;
   stp F2 RB RC RD RA 0 0xe9b6c7aa 20;
   stp F2 RA RB RC RD 5 0xd62f105d 5;
   stp F2 RD RA RB RC 10 0x02441453 9;
   stp F2 RC RD RA RB 15 0xd8a1e681 14;
   stp F2 RB RC RD RA 4 0xe7d3fbc8 20;
   stp F2 RA RB RC RD 9 0x21e1cde6 5;
   stp F2 RD RA RB RC 14 0xc33707d6 9;
   stp F2 RC RD RA RB 3 0xf4d50d87 14;
   stp F2 RB RC RD RA 8 0x455a14ed 20;
   stp F2 RA RB RC RD 13 0xa9e3e905 5;
   stp F2 RD RA RB RC 2 0xfcefa3f8 9;
   stp F2 RC RD RA RB 7 0x676f02d9 14;
   stp F2 RB RC RD RA 12 0x8d2a4c8a 20;
   stp F3 RA RB RC RD 5 0xfffa3942 4;
   stp F3 RD RA RB RC 8 0x8771f681 11;
   stp F3 RC RD RA RB 11 0x6d9d6122 16;
   stp F3 RB RC RD RA 14 0xfde5380c 23;
   stp F3 RA RB RC RD 1 0xa4beea44 4;
   stp F3 RD RA RB RC 4 0x4bdecfa9 11;
   stp F3 RC RD RA RB 7 0xf6bb4b60 16;
   stp F3 RB RC RD RA 10 0xbebfbc70 23;
   stp F3 RA RB RC RD 13 0x289b7ec6 4;
   stp F3 RD RA RB RC 0 0xeaa127fa 11;
   stp F3 RC RD RA RB 3 0xd4ef3085 16;
   stp F3 RB RC RD RA 6 0x04881d05 23;
   stp F3 RA RB RC RD 9 0xd9d4d039 4;
   stp F3 RD RA RB RC 12 0xe6db99e5 11;
   stp F3 RC RD RA RB 15 0x1fa27cf8 16;
   stp F3 RB RC RD RA 2 0xc4ac5665 23;
   stp F4 RA RB RC RD 0 0xf4292244 6;
   stp F4 RD RA RB RC 7 0x432aff97 10;
   stp F4 RC RD RA RB 14 0xab9423a7 15;
   stp F4 RB RC RD RA 5 0xfc93a039 21;
   stp F4 RA RB RC RD 12 0x655b59c3 6;
   stp F4 RD RA RB RC 3 0x8f0ccc92 10;
   stp F4 RC RD RA RB 10 0xffeff47d 15;
   stp F4 RB RC RD RA 1 0x85845dd1 21;
   stp F4 RA RB RC RD 8 0x6fa87e4f 6;
   stp F4 RD RA RB RC 15 0xfe2ce6e0 10;
   stp F4 RC RD RA RB 6 0xa3014314 15;
   stp F4 RB RC RD RA 13 0x4e0811a1 21;
   stp F4 RA RB RC RD 4 0xf7537e82 6;
   stp F4 RD RA RB RC 11 0xbd3af235 10;
   stp F4 RC RD RA RB 2 0x2ad7d2bb 15;
   stp F4 RB RC RD RA 9 0xeb86d391 21].
(** transform, lines 93-174; [l] are the 64 octets of in. *)
Definition words_of (big : bool) (l : list Z) : list Z := map (fun k => load big (firstn 4 (skipn (4 * k) l))) (seq 0 16).
Definition transform (big : bool) (buf : regs) (l : list Z) : regs :=
  let '(a, b, c, d) := fold_left (md5step (words_of big l)) steps buf in
  let '(b0, b1, b2, b3) := buf in (u32 (b0 + a), u32 (b1 + b), u32 (b2 + c), u32 (b3 + d)).

(** ** The context *)
Record ctx := mkCtx { c_buf : regs; c_lo : Z; c_hi : Z; c_in : list Z }.
(** isc_md5_init, lines 58-67: in is not initialised, so it is given. *)
Definition init (junk : list Z) : ctx := mkCtx (0x67452301, 0xefcdab89, 0x98badcfe, 0x10325476) 0 0 junk.
(** byteSwap(ctx->in, 16); transform. *)
Definition digest_in (big : bool) (buf : regs) (l : list Z) : regs * list Z := let s := swap big 16 l in (transform big buf s, s).
(** The loop of lines 201-208. *)
Fixpoint chunks (fuel : nat) (big : bool) (buf : regs) (inp : list Z) (d : list Z) : option (regs * list Z * list Z) :=
  if (64 <=? length d)%nat then
    match fuel with
    | O => None
    | S n => do i <- copy inp 0 (firstn 64 d); let (b, i2) := digest_in big buf i in chunks n big b i2 (skipn 64 d)
    end
  else Some (buf, inp, d).
(** isc_md5_update, lines 180-213. *)
Definition update (big : bool) (c : ctx) (d : list Z) : option ctx :=
  let len := Z.of_nat (length d) in
  let lo := u32 (c_lo c + len) in
  let hi := if lo <? c_lo c then u32 (c_hi c + 1) else c_hi c in
  let t := 64 - Z.land (c_lo c) 63 in
  if len <? t then do i <- copy (c_in c) (Z.to_nat (64 - t)) d; Some (mkCtx (c_buf c) lo hi i) else
  do i <- copy (c_in c) (Z.to_nat (64 - t)) (firstn (Z.to_nat t) d);
  let (b, i2) := digest_in big (c_buf c) i in
  do r <- chunks (length d) big b i2 (skipn (Z.to_nat t) d);
  let '(b3, i3, rest) := r in
  do i4 <- copy i3 0 rest;
  Some (mkCtx b3 lo hi i4).
(** isc_md5_final, lines 219-248: the digest; the context is cleared. *)
Definition final (big : bool) (c : ctx) : option (list Z) :=
  let count := Z.land (c_lo c) 63 in
  do i1 <- copy (c_in c) (Z.to_nat count) [128];
  let left := 56 - 1 - count in
  do r <- (if left <? 0 then
             do i2 <- copy i1 (Z.to_nat (count + 1)) (repeat 0 (Z.to_nat (left + 8)));
             let (b, i3) := digest_in big (c_buf c) i2 in Some (b, i3, 0%nat, 56)
           else Some (c_buf c, i1, Z.to_nat (count + 1), left));
  let '(b, i4, p, n) := r in
  do i5 <- copy i4 p (repeat 0 (Z.to_nat n));
  do i6 <- copy (swap big 14 i5) 56 (store big (u32 (Z.shiftl (c_lo c) 3)));
  do i7 <- copy i6 60 (store big (Z.lor (u32 (Z.shiftl (c_hi c) 3)) (Z.shiftr (c_lo c) 29)));
  let '(x0, x1, x2, x3) := transform big b i7 in
  Some (swap big 4 (store big x0 ++ store big x1 ++ store big x2 ++ store big x3)).

(** ** MD5authencrypt, lines 256-274 *)
(** The key is a C string: up to the first NUL. *)
Fixpoint cstr (l : list Z) : list Z := match l with [] => [] | c :: r => if c =? 0 then [] else c :: cstr r end.
(** htonl. *)
Definition htonl (big : bool) (x : Z) : list Z := [x / 2^24 mod 256; x / 2^16 mod 256; x / 2^8 mod 256; x mod 256].
Definition authencrypt (big : bool) (junk key pkt : list Z) (len : nat) (keyid : Z) : option (list Z * Z) :=
  do p1 <- copy pkt (4 * (len / 4)) (htonl big (u32 keyid));
  do c1 <- update big (init junk) (cstr key);
  do c2 <- update big c1 (firstn len p1);
  do d <- final big c2;
  do p2 <- copy p1 (len + 4) d;
  Some (p2, 20).
