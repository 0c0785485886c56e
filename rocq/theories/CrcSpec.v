(** CrcSpec: CRC-32 by polynomial division (ISO 3309, RFC 1952).  A polynomial over GF(2) is a number
    whose bit [i] is the coefficient of x^i; adding is exclusive or. *)
From Verif Require Import Base.

Fixpoint pmul_pos (a : positive) (b : N) : N :=
  match a with
  | xH => b
  | xO a => 2 * pmul_pos a b
  | xI a => N.lxor b (2 * pmul_pos a b)
  end.
Definition pmul (a b : N) : N := match a with N0 => 0 | Npos p => pmul_pos p b end.

(** x^32 + x^26 + x^23 + x^22 + x^16 + x^12 + x^11 + x^10 + x^8 + x^7 + x^5 + x^4 + x^2 + x + 1 *)
Definition GEN : N :=
  fold_right (fun k a => N.lxor (2 ^ k) a) 0 [32; 26; 23; 22; 16; 12; 11; 10; 8; 7; 5; 4; 2; 1; 0].

(** the bits of the message in the order they are sent: least significant bit of every byte first *)
Definition byte_bits (b : byte) : list bool := map (N.testbit (b2n b)) [0; 1; 2; 3; 4; 5; 6; 7].
Definition bits (d : bytes) : list bool := concat (map byte_bits d).
(** the first bit is the highest coefficient *)
Definition poly (l : list bool) : N := fold_left (fun (a : N) (b : bool) => 2 * a + N.b2n b) l 0.

(** bit [i] of the result is bit [31 - i] *)
Definition rev32 (r : N) : N := poly (map (fun i => N.testbit r (N.of_nat i)) (seq 0 32)).
Definition ONES : N := 4294967295.

(** [c] is the CRC-32 of [d]: the message, with the first 32 bits inverted and 32 zero bits behind it,
    divided by the generator; the remainder is reflected and inverted *)
Definition is_crc32 (d : bytes) (c : N) : Prop :=
  exists q r, r < 2 ^ 32 /\
    N.lxor (poly (bits d) * 2 ^ 32) (ONES * 2 ^ lenN (bits d)) = N.lxor (pmul q GEN) r /\
    c = N.lxor (rev32 r) ONES.
