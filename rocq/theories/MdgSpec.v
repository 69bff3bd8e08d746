(** C78, specification: the message digest of RFC 1321 and the authenticator of an NTP request.
    Numbers and octets are [Z]. *)
Require Import ZArith List Bool.
Import ListNotations.
Open Scope Z_scope.

Definition octet (x : Z) : Prop := 0 <= x < 256.
(** Numbers as octets, low order first; high order first. *)
Fixpoint le (n : nat) (x : Z) : list Z := match n with O => [] | S m => x mod 256 :: le m (x / 256) end.
Fixpoint unle (l : list Z) : Z := match l with [] => 0 | b :: r => b + 256 * unle r end.
Definition be32 (x : Z) : list Z := rev (le 4 x).

(** RFC 1321, 3.1 and 3.2: one bit, zeros up to 56 modulo 64 octets, the number of bits modulo 2^64. *)
Definition zeros (n : Z) : nat := Z.to_nat ((55 - n) mod 64).
Definition padded (m : list Z) : list Z :=
  let n := Z.of_nat (length m) in m ++ [128] ++ repeat 0 (zeros n) ++ le 8 ((8 * n) mod 2^64).

(** 3.4: the functions F, G, H, I on words of 32 bits. *)
Definition not32 (x : Z) : Z := 2^32 - 1 - x.
Definition aux (r : nat) (x y z : Z) : Z :=
  match r with
  | 0%nat => Z.lor (Z.land x y) (Z.land (not32 x) z)
  | 1%nat => Z.lor (Z.land x z) (Z.land y (not32 z))
  | 2%nat => Z.lxor (Z.lxor x y) z
  | _ => Z.lxor y (Z.lor x (not32 z))
  end.
(** T[i]: the integer part of 2^32 |sin i|, i from 1 to 64, as listed in the RFC. *)
Definition table : list Z :=
  [0xd76aa478; 0xe8c7b756; 0x242070db; 0xc1bdceee;
   0xf57c0faf; 0x4787c62a; 0xa8304613; 0xfd469501;
   0x698098d8; 0x8b44f7af; 0xffff5bb1; 0x895cd7be;
   0x6b901122; 0xfd987193; 0xa679438e; 0x49b40821;
   0xf61e2562; 0xc040b340; 0x265e5a51; 0xe9b6c7aa;
   0xd62f105d; 0x02441453; 0xd8a1e681; 0xe7d3fbc8;
   0x21e1cde6; 0xc33707d6; 0xf4d50d87; 0x455a14ed;
   0xa9e3e905; 0xfcefa3f8; 0x676f02d9; 0x8d2a4c8a;
   0xfffa3942; 0x8771f681; 0x6d9d6122; 0xfde5380c;
   0xa4beea44; 0x4bdecfa9; 0xf6bb4b60; 0xbebfbc70;
   0x289b7ec6; 0xeaa127fa; 0xd4ef3085; 0x04881d05;
   0xd9d4d039; 0xe6db99e5; 0x1fa27cf8; 0xc4ac5665;
   0xf4292244; 0x432aff97; 0xab9423a7; 0xfc93a039;
   0x655b59c3; 0x8f0ccc92; 0xffeff47d; 0x85845dd1;
   0x6fa87e4f; 0xfe2ce6e0; 0xa3014314; 0x4e0811a1;
   0xf7537e82; 0xbd3af235; 0x2ad7d2bb; 0xeb86d391].
(** The word of the block and the shift of operation i, i from 0 to 63. *)
Definition which (i : nat) : nat :=
  match (i / 16)%nat with 0%nat => i mod 16 | 1%nat => (5 * i + 1) mod 16 | 2%nat => (3 * i + 5) mod 16 | _ => (7 * i) mod 16 end%nat.
Definition shift (i : nat) : Z :=
  nth (i mod 4) (match (i / 16)%nat with 0%nat => [7; 12; 17; 22] | 1%nat => [5; 9; 14; 20] | 2%nat => [4; 11; 16; 23] | _ => [6; 10; 15; 21] end) 0.
Definition rotate (x s : Z) : Z := Z.lor ((x * 2^s) mod 2^32) (x / 2^(32 - s)).
Definition state := (Z * Z * Z * Z)%type.
(** a = b + ((a + F(b,c,d) + X[k] + T[i]) <<< s), and the names move on by one. *)
Definition operation (x : list Z) (v : state) (i : nat) : state :=
  let '(a, b, c, d) := v in
  (d, (b + rotate ((a + aux (i / 16) b c d + nth (which i) x 0 + nth i table 0) mod 2^32) (shift i)) mod 2^32, b, c).
Definition word (l : list Z) (k : nat) : Z := unle (firstn 4 (skipn (4 * k) l)).
Definition block (v : state) (l : list Z) : state :=
  let x := map (word l) (seq 0 16) in
  let '(a, b, c, d) := v in
  let '(a', b', c', d') := fold_left (operation x) (seq 0 64) v in
  ((a + a') mod 2^32, (b + b') mod 2^32, (c + c') mod 2^32, (d + d') mod 2^32).
(** 3.3: the first state. *)
Definition first : state := (0x67452301, 0xefcdab89, 0x98badcfe, 0x10325476).
Fixpoint blocks (n : nat) (v : state) (l : list Z) : state := match n with O => v | S m => blocks m (block v (firstn 64 l)) (skipn 64 l) end.
(** 3.5: the output. *)
Definition output (v : state) : list Z := let '(a, b, c, d) := v in le 4 a ++ le 4 b ++ le 4 c ++ le 4 d.
Definition md5 (m : list Z) : list Z := let p := padded m in output (blocks (length p / 64) first p).

(** The authenticator of a packet: the number of the key and the digest of key and packet. *)
Definition mac (key : list Z) (keyid : Z) (packet : list Z) : list Z := be32 (keyid mod 2^32) ++ md5 (key ++ packet).
